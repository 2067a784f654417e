(** Concurrent calls of the token store: an invariant that every piece keeps and that excludes panics. *)
From Verif Require Import Base SMap DataModel BincodeModel BincodeProofs FilterModel FilterProofs StoreModel TokenModel TokenProofs TokenProps SplModel SplProofs TokenUtilsModel
  TokenUtilsProofs TokenPendModel TokenPendSpec TokenPendProofs TokenPendProps TokenUtilsProps TokenStoreModel TokenStoreSpec TokenStoreProofs TokenStoreViews TokenStoreProps TokenStoreOrder
  TokenStoreQuery TokenStoreQueryProps TokenStoreSafe TokenConcModel TokenConcSpec.
#[local] Arguments le : simpl never.
#[local] Arguments unle : simpl never.
#[local] Opaque to_bytes from_bytes peek_pubkey.

(** ** Pending reads *)
Definition allp (P : pacct * N -> Prop) (ret : list (option (pacct * N))) : Prop := forall x, Some x ∈ ret -> P x.
Lemma allp_none P n : allp P (replicate n None).
Proof. intros x Hx. by apply elem_of_replicate in Hx as [? _]. Qed.
Lemma fill_allp (P : pacct * N -> Prop) b s pks ret : allp P ret -> (forall pk v, ps_accounts b !! pk = Some v -> P (v, s)) -> allp P (fill b s pks ret).
Proof.
  intros Hr Hb. revert ret Hr. induction pks as [|pk pks IH]; intros [|o ret] Hr; simpl; try done. intros x [Hx|Hx]%elem_of_cons.
  - destruct o as [y|]; [apply Hr; rewrite Hx; left|]. destruct (ps_accounts b !! pk) as [v|] eqn:Hv; [|done]. simpl in Hx. injection Hx as ->. by eapply Hb.
  - apply (IH ret); [|done]. intros y Hy. apply Hr. by right.
Qed.
Lemma conf_walk_allp (P : pacct * N -> Prop) fuel p pks cur ret r : sm_sorted p -> (forall s pk v, version p s pk v -> P (v, s)) -> allp P ret ->
  conf_walk fuel p pks cur ret = Some r -> allp P r.
Proof.
  intros Hs Hp. revert cur ret. induction fuel as [|fuel IH]; intros cur ret Hr; simpl; [done|]. destruct cur as [s|]; [|by intros [= <-]].
  destruct (sm_get s p) as [b|] eqn:Hb; [|by intros [= <-]]. assert (allp P (fill b s pks ret)) as Hf.
  { apply fill_allp; [done|]. intros pk v Hv. apply (Hp s pk v). apply (version_get _ Hs). eauto. }
  destruct (all_found _); [by intros [= <-]|]. by apply IH.
Qed.
Lemma proc_top_allp (P : pacct * N -> Prop) pks conf l ret : (forall s pk v, version l s pk v -> P (v, s)) -> allp P ret -> allp P (proc_top pks conf l ret).1.
Proof.
  revert ret. induction l as [|[s b] l IH]; intros ret Hl Hr; simpl; [done|]. destruct (conf <? s); [|done].
  assert (allp P (fill b s pks ret)) as Hf. { apply fill_allp; [done|]. intros pk v Hv. apply (Hl s pk v). exists b. split; [left|done]. }
  destruct (all_found _); [done|]. apply IH; [|done]. intros s' pk v (b' & Hb & Hv). apply (Hl s' pk v). exists b'. split; [by right|done].
Qed.
Lemma proc_top_len pks conf l ret : length (proc_top pks conf l ret).1 = length ret.
Proof.
  revert ret. induction l as [|[s b] l IH]; intros ret; simpl; [done|]. destruct (conf <? s); [|done]. destruct (all_found _); [apply fill_len|]. by rewrite IH, fill_len.
Qed.
(** The two halves are the walk of the sequential model. *)
Lemma proc_top_walk fuel p pks conf l ret : proc_walk fuel p pks conf l ret =
  let '(ret', more) := proc_top pks conf l ret in if more : bool then conf_walk fuel p pks (Some conf) ret' else Some ret'.
Proof.
  revert ret. induction l as [|[s b] l IH]; intros ret; simpl; [done|]. destruct (conf <? s); [|done]. destruct (all_found _); [done|]. apply IH.
Qed.

Lemma set_size_le (M : list pubkey) : (size (list_to_set (C := gset pubkey) M) <= length M)%nat.
Proof.
  induction M as [|a M IH]; cbn [list_to_set length]; [done|]. destruct (decide (a ∈ (list_to_set M : gset pubkey))) as [Ha|Ha].
  - replace ({[a]} ∪ list_to_set M : gset pubkey) with (list_to_set M : gset pubkey) by set_solver. lia.
  - rewrite size_union by set_solver. rewrite size_singleton. lia.
Qed.

Lemma from_stored ts (S : gset nat) l : tinv ts -> tb_by_index (ts_table ts) S = Done l -> forall t, t ∈ l -> exists i, stored (ts_table ts) i t.
Proof.
  intros Hi Hl t Ht. unfold tb_by_index in Hl. destruct (from_all_spec (ts_table ts) (elements S) (ti_table _ Hi) (NoDup_elements _)) as (js & l' & Hl' & _ & _ & Hf2 & _).
  rewrite Hl in Hl'. injection Hl' as <-. apply elem_of_list_lookup in Ht as [k Hk]. destruct (Forall2_lookup_r _ _ _ _ _ Hf2 Hk) as (j & _ & Hst). eauto.
Qed.

(** ** The invariant *)
Section conc.
Context (E : ext) (X : lz4x) (L : list tsop).
Definition orig (x : tpa) : Prop := exists o, o ∈ L /\ comes_from E o x.
(** A token account as it was delivered, under the index of its mint. *)
Definition row_of (ts : tstore) (t : token_account) : Prop :=
  exists o a p v r, o ∈ L /\ op_acct o = Some a /\ live_with E a p v /\ unpack_account v = Some r /\ t = of_spl_account p a r (ta_mint t) None /\
    ts_mint_ix ts !! sa_mint r = Some (ta_mint t).
Definition addable (ts : tstore) (x : tpa) : Prop :=
  tpa_ok (ts_ctr ts) x /\ (forall t, x = TPToken t -> is_Some (ts_mints ts !! ta_mint t) /\ row_of ts t) /\ orig x.
Definition row_known (ts : tstore) (t : token_account) : Prop := ta_deleted t = false -> is_Some (ts_mints ts !! ta_mint t) /\ row_of ts t.
(** Rows that were taken out of the key index. *)
Definition loose (ts : tstore) (i : nat) : Prop :=
  (i < length (tb_accounts (ts_table ts)))%nat /\ forall k jxs, tb_index (ts_table ts) !! k = Some jxs -> i ∉ jxs.
Definition tho (ts : tstore) (t : tthr) : Prop :=
  match t with
  | XUpd a c | XUpdMulti a c | XUpdTable a c | XType a c => upd_op a c ∈ L /\ names_known E ts (upd_op a c)
  | XIns a ty => addable ts ty /\ tpa_pubkey ty = d_pubkey a
  | XAdds l _ | XByMint _ _ l _ | XByOwner _ _ l _ => Forall (addable ts) l
  | XDelMint _ _ _ | XDelByMint _ _ _ => False
  | XDel2 pk l _ | XDelKey pk l _ => orig (TPDeleted pk) /\ Forall (addable ts) l
  | XDelRow pk ixs l _ => orig (TPDeleted pk) /\ Forall (addable ts) l /\ Forall (loose ts) ixs
  | XSlot ord si _ | XFinInfo ord si | XFinStore ord si | XFinalize ord si => (forall m, ord m ≡ₚ map_to_list m) /\ si_parent si < si_slot si
  | XConfStore si | XConfInfo si | XFor si | XForNew si => si_parent si < si_slot si
  | XRender q _ adds => Forall (fun x => addable ts x.1.1) q /\ Forall (addable ts) adds
  | XPendConf _ _ ret => length ret = 1%nat /\ allp (fun x => addable ts x.1.1) ret
  | XShow ty _ => addable ts ty
  | XRowSlot tk | XRow tk _ => row_known ts tk
  | XGpa p fl _ => calm_query E ts p fl
  | XGpaOwner _ m _ _ => forall q, m = Some q -> knows ts q
  | XGpaOwnerMint _ m _ _ _ => knows ts m
  | XGpaAll cs _ _ => forall d v, d ∈ cs -> allows E d v <> Panic
  | XRows q _ _ _ => Forall (row_known ts) q
  | XOverConf l _ ret => allp (fun x => addable ts x.1.1) ret
  | XOverlay _ ps _ => allp (fun x => addable ts x.1.1) ps
  | XLoad _ | XLoadMulti _ _ _ | XLoadMints _ _ _ | XLoadNew _ _ _ _ _ | XLoadRows _ _ | XLoadOwner _ _ _ _ | XLoadOwnerNew _ _ _ _
  | XLoadMint _ _ _ _ | XLoadMintNew _ _ _ _ => False
  | XGet _ _ | XPend _ _ _ | XGetFin _ | XGetMint _ | XGetRow _ | XGpaRows _ _ _ _ _ | XGpaMint _ _ _ | XOver _ _ | XOverPend _ _ _ | XDone _ => True
  end.
(** What every piece guarantees to the other calls. *)
Record guar (ts ts' : tstore) : Prop := Guar {
  gu_ix : forall q i, ts_mint_ix ts !! q = Some i -> ts_mint_ix ts' !! q = Some i;
  gu_mb : forall i m, ts_mints ts !! i = Some m -> exists m', ts_mints ts' !! i = Some m' /\ ma_pubkey m' = ma_pubkey m;
  gu_ctr : ts_ctr ts <= ts_ctr ts';
  gu_loose : forall i, loose ts i -> loose ts' i;
}.
Lemma guar_refl ts : guar ts ts.
Proof. constructor; eauto. Qed.
Lemma guar_trans ts1 ts2 ts3 : guar ts1 ts2 -> guar ts2 ts3 -> guar ts1 ts3.
Proof.
  intros [A1 A2 A3 A4] [B1 B2 B3 B4]. constructor; [auto| |lia|auto]. intros i m Hm. destruct (A2 _ _ Hm) as (m' & Hm' & <-). by apply B2.
Qed.
Lemma row_of_guar ts ts' t : guar ts ts' -> row_of ts t -> row_of ts' t.
Proof. intros G (o & a & p & v & r & H1 & H2 & H3 & H4 & H5 & H6). exists o, a, p, v, r. split_and!; try done. by apply (gu_ix _ _ G). Qed.
Lemma row_known_guar ts ts' t : guar ts ts' -> row_known ts t -> row_known ts' t.
Proof. intros G H Hd. destruct (H Hd) as [[m Hm] Hr]. split; [|by eapply row_of_guar]. destruct (gu_mb _ _ G _ _ Hm) as (m' & ? & _). eauto. Qed.
Lemma addable_guar ts ts' x : guar ts ts' -> addable ts x -> addable ts' x.
Proof.
  intros G (H1 & H2 & H3). split; [eapply tpa_ok_mono; [done|apply (gu_ctr _ _ G)]|]. split; [|done]. intros t Ht. destruct (H2 t Ht) as [[m Hm] Hr].
  split; [|by eapply row_of_guar]. destruct (gu_mb _ _ G _ _ Hm) as (m' & ? & _). eauto.
Qed.
Lemma knows_guar ts ts' q : guar ts ts' -> knows ts q -> knows ts' q.
Proof. intros G [i Hi]. exists i. by apply (gu_ix _ _ G). Qed.
Lemma tho_guar ts ts' t : guar ts ts' -> tho ts t -> tho ts' t.
Proof.
  intros G. assert (forall l, Forall (addable ts) l -> Forall (addable ts') l) as Hl.
  { intros l H. eapply Forall_impl; [exact H|]. intros x. by apply addable_guar. }
  assert (forall ret, allp (fun x => addable ts x.1.1) ret -> allp (fun x => addable ts' x.1.1) ret) as Hr.
  { intros ret H x Hx. eapply addable_guar; [done|]. by apply H. }
  assert (forall o, names_known E ts o -> names_known E ts' o) as Hn.
  { intros o H q Hq. eapply knows_guar; [done|]. by apply H. }
  destruct t; simpl; try done; try (by intros [? ?]; split; auto); try (by auto).
  - intros [? ?]. split; [by eapply addable_guar|done].
  - intros (? & ? & H). split; [done|]. split; [by apply Hl|]. eapply Forall_impl; [exact H|]. intros i. apply (gu_loose _ _ G).
  - intros [H ?]. split; [|by apply Hl]. eapply Forall_impl; [exact H|]. intros x. by apply addable_guar.
  - by apply addable_guar.
  - by apply row_known_guar.
  - by apply row_known_guar.
  - intros H cs Hcs. destruct (H cs Hcs) as [H1 H2]. split; [done|]. intros o m Hm. eapply knows_guar; [done|]. by eapply H2.
  - intros H q Hq. eapply knows_guar; [done|]. by apply H.
  - by apply knows_guar.
  - intros H. eapply Forall_impl; [exact H|]. intros x. by apply row_known_guar.
Qed.
Record ginv (ts : tstore) : Prop := GInv {
  gi_t : tinv ts;
  gi_k : kinv E L ts;
  gi_n : ts_ctr ts = N.of_nat (size (ts_mint_ix ts));
  gi_rows : forall i t, stored (ts_table ts) i t -> ta_deleted t = false -> row_of ts t;
  gi_pd : forall s pk v t, version (ts_pend ts) s pk v -> v.1 = TPToken t -> row_of ts t;
  gi_mi : forall i m, ts_mints ts !! i = Some m -> orig (TPMint m);
  gi_mu : forall pk m, ts_multi ts !! pk = Some m -> orig (TPMulti m pk) }.
Context (HW : calm_world E L).
Lemma few ts : ginv ts -> ts_ctr ts <= 2 ^ 32.
Proof.
  intros [_ K -> _ _ _ _]. destruct HW as (_ & _ & _ & _ & M & HM & Hin). assert (size (ts_mint_ix ts) <= length M)%nat; [|unfold lenN in HM; lia].
  rewrite <- (size_dom (D := gset pubkey)). etrans; [|apply set_size_le].
  apply subseteq_size. intros q Hq. apply elem_of_dom in Hq as [i Hi]. apply elem_of_list_to_set. destruct (fi_from _ _ _ (ki_fin _ _ _ K) _ _ Hi) as (o & Ho & Hn). by eapply Hin.
Qed.
Lemma addable_good ts t : ginv ts -> addable ts (TPToken t) -> good t.
Proof. intros Hg (H & _). eapply tpa_ok_good; [done|by apply few]. Qed.
Lemma kinv_known ts s pk v : ginv ts -> version (ts_pend ts) s pk v -> addable ts v.1 /\ tpa_pubkey v.1 = pk.
Proof.
  intros [T K _ _ P _ _] Hv. destruct (ti_pend _ T _ _ _ Hv) as [H1 H2]. split; [|done]. split; [done|]. split; [|by eapply ki_orig]. intros t Ht. split; [by eapply ki_pend|by eapply P].
Qed.
(** *** Changing one part of the store *)
Lemma ginv_pend ts p : ginv ts -> sm_sorted p -> parents_before p -> (forall s pk v, version p s pk v -> addable ts v.1 /\ tpa_pubkey v.1 = pk) ->
  ginv (set_pend ts p) /\ guar ts (set_pend ts p).
Proof.
  intros [T K Nn R P MI MU] Hs Hb Hv. split; [|constructor; eauto; simpl; lia]. constructor; try done.
  - apply tinv_set_pend; [done..|]. intros s pk v H. destruct (Hv _ _ _ H) as [(? & _) ?]. done.
  - destruct K as [[F1 F2 F3] K2 K3 K4]. constructor; simpl; [by constructor| | |done].
    + intros s pk v t H Ht. destruct (Hv _ _ _ H) as [(_ & Hx & _) _]. by apply Hx.
    + intros s pk v H. destruct (Hv _ _ _ H) as [(_ & _ & ?) _]. done.
  - intros s pk v t H Ht. destruct (Hv _ _ _ H) as [(_ & Hx & _) _]. by destruct (Hx t Ht).
Qed.
Lemma ginv_conf ts c : ginv ts -> ginv (set_conf ts c) /\ guar ts (set_conf ts c).
Proof.
  intros [T K Nn R P MI MU]. split; [|constructor; eauto; simpl; lia]. constructor; [by apply tinv_set_conf| |done..]. destruct K as [[F1 F2 F3] K2 K3 K4]. by constructor; [constructor|..].
Qed.
Lemma ginv_fin ts c : ginv ts -> ginv (set_fin ts c) /\ guar ts (set_fin ts c).
Proof.
  intros [T K Nn R P MI MU]. split; [|constructor; eauto; simpl; lia]. constructor; [by apply tinv_set_fin| |done..]. destruct K as [[F1 F2 F3] K2 K3 K4]. by constructor; [constructor|..].
Qed.
Lemma ginv_table ts bm bo tb : ginv ts -> tb_ok tb ->
  (forall i t, stored tb i t -> ta_deleted t = false -> stored (ts_table ts) i t \/ addable ts (TPToken t)) ->
  (forall pk i t, at_pos tb pk i t -> ta_deleted t = false) -> (forall i, loose ts i -> loose (set_table ts bm bo tb) i) ->
  ginv (set_table ts bm bo tb) /\ guar ts (set_table ts bm bo tb).
Proof.
  intros [T K Nn R P MI MU] Hok Hst Hlv Hlo. split; [|constructor; eauto; simpl; lia]. constructor; [| |done| |done..].
  - apply tinv_table; [done..| |done]. intros i t H Hd. destruct (Hst i t H Hd) as [H'|((_ & H' & _) & _)]; [by eapply ti_tokens|done].
  - destruct K as [[F1 F2 F3] K2 K3 K4]. constructor; [constructor|..]; simpl; try done.
    intros i t H Hd. destruct (Hst i t H Hd) as [H'|(_ & H' & _)]; [by eapply F1|by apply H'].
  - intros i t H Hd. destruct (Hst i t H Hd) as [H'|(_ & H' & _)]; [by eapply R|by apply H'].
Qed.
Lemma save_piece ts t : ginv ts -> addable ts (TPToken t) -> exists tb i b, tb_save (ts_table ts) t = Done (tb, i, b) /\
  ginv (set_table ts (ts_by_mint ts) (ts_by_owner ts) tb) /\ guar ts (set_table ts (ts_by_mint ts) (ts_by_owner ts) tb).
Proof.
  intros Hg Ha. pose proof (addable_good _ _ Hg Ha) as Hgd. pose proof (gi_t _ Hg) as T.
  destruct (tb_save_spec _ t (ti_table _ T) Hgd) as (tb & i & b & Hs & Hok & Hat & Hoth & Hold & Hnew & Hsame & Hlen).
  exists tb, i, b. split; [done|]. apply ginv_table; [done..| | |].
  - intros j t' Hj Hd. destruct (decide (j = i)) as [->|Hne].
    + right. destruct Hat as [Hat _]. by rewrite (stored_fun _ _ _ _ Hj Hat).
    + left. destruct Hj as [? Hj]. split; [done|]. by rewrite <- Hsame.
  - intros q j t' Hq. destruct (decide (q = ta_pubkey t)) as [->|Hne].
    + destruct (at_pos_fun _ _ _ _ _ _ Hok Hq Hat) as [_ ->]. by destruct Ha as ((_ & _ & ?) & _).
    + apply Hoth in Hq; [|done]. by eapply ti_live.
  - intros j [Hl Hj]. split; [simpl; lia|]. intros k jxs Hk Hin. simpl in Hk.
    destruct (to_bucket _ Hok _ _ Hk) as [_ Hb]. destruct (Hb j Hin) as (t' & Hst & Hp).
    destruct (decide (ta_pubkey t' = ta_pubkey t)) as [He|Hne].
    + assert (at_pos tb (ta_pubkey t) j t') as Hat'. { split; [done|]. split; [done|]. rewrite <- He, Hp. eauto. }
      destruct (at_pos_fun _ _ _ _ _ _ Hok Hat' Hat) as [-> ->]. destruct b.
      * destruct Hnew as [-> _]; [done|]. lia.
      * destruct Hold as (t0 & _ & _ & ixs & Hix & Hi0); [done|]. by eapply Hj.
    + assert (at_pos tb (ta_pubkey t') j t') as Hat'. { split; [done|]. split; [done|]. rewrite Hp. eauto. }
      apply Hoth in Hat' as (_ & _ & ixs & Hix & Hi0); [|done]. by eapply Hj.
Qed.
Lemma del_key_piece ts pk ixs : ginv ts -> tb_index (ts_table ts) !! prefix4 pk = Some ixs ->
  let ts' := set_table ts (ts_by_mint ts) (ts_by_owner ts) (tb_del_key (ts_table ts) pk) in ginv ts' /\ guar ts ts' /\ Forall (loose ts') ixs.
Proof.
  intros Hg Hk ts'. pose proof (gi_t _ Hg) as T. pose proof (ti_table _ T) as Hok. set (tb := tb_del_key (ts_table ts) pk).
  assert (tb_ok tb) as Hok'.
  { constructor; simpl.
    - apply (to_all _ Hok).
    - intros k jxs [_ H]%lookup_delete_Some. apply (to_bucket _ Hok _ _ H).
    - intros k jxs i j t t' [_ H]%lookup_delete_Some. apply (to_uniq _ Hok _ _ _ _ _ _ H). }
  assert (Forall (loose ts') ixs) as Hlo.
  { apply Forall_forall. intros i Hi. destruct (to_bucket _ Hok _ _ Hk) as [_ Hb]. destruct (Hb i Hi) as (t & Hst & Hp). split; [simpl; by eapply stored_lt|].
    simpl. intros k jxs [Hne Hkk]%lookup_delete_Some Hin. destruct (to_bucket _ Hok _ _ Hkk) as [_ Hb']. destruct (Hb' i Hin) as (t' & Hst' & Hp').
    apply Hne. rewrite <- Hp, <- Hp'. f_equal. f_equal. by eapply stored_fun. }
  destruct (ginv_table ts (ts_by_mint ts) (ts_by_owner ts) tb Hg Hok') as [H1 H2]; [| | |by split; [|split]].
  - intros i t Hst _. by left.
  - intros q i t (Hst & Hp & jxs & H & Hin). simpl in H. apply lookup_delete_Some in H as [_ H]. eapply (ti_live _ T q i t). split; [done|]. eauto.
  - intros i [Hl Hj]. split; [done|]. simpl. intros k jxs [_ H]%lookup_delete_Some. by eapply Hj.
Qed.
Lemma del_row_piece ts pk ixs : ginv ts -> Forall (loose ts) ixs -> exists tb, tb_del_row (ts_table ts) pk ixs = Done tb /\
  ginv (set_table ts (ts_by_mint ts) (ts_by_owner ts) tb) /\ guar ts (set_table ts (ts_by_mint ts) (ts_by_owner ts) tb).
Proof.
  intros Hg Hlo. pose proof (gi_t _ Hg) as T. pose proof (ti_table _ T) as Hok. unfold tb_del_row.
  destruct (find_pk_spec (ts_table ts) pk ixs) as (o & -> & Ho).
  { intros i Hi. eapply Forall_forall in Hlo as [Hl _]; [|done]. apply lookup_lt_is_Some in Hl as [v Hv]. destruct (to_all _ Hok _ _ Hv) as (t & Hgd & ->). exists t. by split. }
  cbn [mbind res_bind]. eexists. split; [done|]. destruct o as [i|]; [|split; [|by constructor; eauto; simpl; lia]]; [|destruct Hg as [G1 G2 G3 G4 G5 G6 G7]; constructor; [by destruct G1|by destruct G2 as [[] ? ? ?]; constructor; [constructor|..]|done..]].
  destruct Ho as (Hi & t0 & Hst0 & Hp0). eapply Forall_forall in Hlo as [Hl Hnb]; [|done].
  assert (forall j t, stored (Table (tb_index (ts_table ts)) (<[i:=to_bytes deleted_account]> (tb_accounts (ts_table ts)))) j t ->
            (j = i /\ t = deleted_account) \/ (j <> i /\ stored (ts_table ts) j t)) as Hsi.
  { intros j t Hj. apply (stored_insert _ _ _ _ _ _ Hj); [apply good_deleted|done]. }
  assert (forall j t, j <> i -> stored (ts_table ts) j t -> stored (Table (tb_index (ts_table ts)) (<[i:=to_bytes deleted_account]> (tb_accounts (ts_table ts)))) j t) as Hsj.
  { intros j t Hne [? Hj]. split; [done|]. simpl. by rewrite list_lookup_insert_ne. }
  apply ginv_table; [done|constructor; simpl|..].
  - intros j v Hj. destruct (decide (j = i)) as [->|Hne].
    + rewrite list_lookup_insert in Hj by done. injection Hj as <-. eauto using good_deleted.
    + rewrite list_lookup_insert_ne in Hj by done. by eapply to_all.
  - intros k jxs Hk. destruct (to_bucket _ Hok _ _ Hk) as [Hne Hb]. split; [done|]. intros j Hj. destruct (Hb j Hj) as (t & Hst & Hp). exists t. split; [|done].
    apply Hsj; [|done]. intros ->. by eapply Hnb.
  - intros k jxs j j' t t' Hk Hj Hj' Ht Ht'. apply Hsi in Ht as [[-> _]|[_ Ht]]; [by destruct (Hnb _ _ Hk)|]. apply Hsi in Ht' as [[-> _]|[_ Ht']]; [by destruct (Hnb _ _ Hk)|].
    by eapply (to_uniq _ Hok).
  - intros j t Hj Hd. apply Hsi in Hj as [[_ ->]|[_ Hj]]; [done|by left].
  - intros q j t (Hst & Hp & jxs & Hk & Hj). simpl in Hk. apply Hsi in Hst as [[-> _]|[_ Hst]]; [by destruct (Hnb _ _ Hk)|]. eapply (ti_live _ T q j t). split; [done|]. eauto.
  - intros j [Hlj Hj]. split; [simpl; by rewrite insert_length|done].
Qed.
(** *** The pieces *)
Lemma upd_in a c : upd_op a c ∈ L -> op_acct (upd_op a c) = Some a /\ d_pubkey a < 2 ^ 256 /\ readable E a.
Proof.
  intros Hin. destruct HW as (H1 & _ & H3 & _). assert (op_acct (upd_op a c) = Some a) as Ha by (by destruct c). split; [done|]. split; [|by eapply H3].
  eapply Forall_forall in H1; [|done]. by destruct c.
Qed.
Lemma type_piece ts a c : ginv ts -> upd_op a c ∈ L -> names_known E ts (upd_op a c) ->
  exists r, account_type E a (ts_mint_ix ts) (ts_ctr ts) = Done r /\
    forall ty ix ctr, r = Some (ty, ix, ctr) -> ix = ts_mint_ix ts /\ ctr = ts_ctr ts /\ addable ts ty /\ tpa_pubkey ty = d_pubkey a.
Proof.
  intros Hg Hin Hn. destruct (upd_in _ _ Hin) as (Ha & Hp & Hr). destruct (account_type_done E a (ts_mint_ix ts) (ts_ctr ts) Hr) as [r Ht]. exists r. split; [done|].
  intros ty ix ctr ->. pose proof (gi_t _ Hg) as T. destruct (accepted_ok _ _ _ _ _ _ _ Ht Hp (ti_ix _ T)) as (_ & _ & Hok & Hpk & _).
  assert (orig ty) as Ho. { exists (upd_op a c). split; [done|]. exists a, (ts_mint_ix ts), (ts_ctr ts), ix, ctr. split; [done|]. split; [done|]. split; [apply (ti_ix _ T)|done]. }
  pose proof Ht as Ht'.
  apply account_type_inv in Ht' as [(-> & -> & ->)|[Hl (p & v & Hw & Hv & [(m' & y & Hu & -> & -> & ->)|[(m' & Hu & -> & -> & ->)|(s & i & Hu & Hmi & ->)]])]].
  1-3: by split_and!.
  destruct (Hn (sa_mint s)) as [j Hj]; [by exists a, v, s|]. unfold mint_index in Hmi. rewrite Hj in Hmi. injection Hmi as <- <- <-.
  split; [done|]. split; [done|]. split; [|done]. split; [done|]. split; [|done]. intros t [= <-]. cbn [of_spl_account ta_mint]. split.
  2:{ exists (upd_op a c), a, p, v, s. split_and!; try done. constructor; try done. destruct HW as (_ & _ & Hd & _). destruct (Hd _ _ Hin Ha) as (v' & Hv' & Hlen). congruence. }
  by apply (fi_ix _ _ _ (ki_fin _ _ _ (gi_k _ Hg)) (sa_mint s)).
Qed.
Lemma set_ix_same ts : set_ix ts (ts_mint_ix ts) (ts_ctr ts) = ts.
Proof. by destruct ts. Qed.
Lemma info_piece ts si : ginv ts -> si_parent si < si_slot si -> ginv (set_pend ts (pd_slot_info (ts_pend ts) si)) /\ guar ts (set_pend ts (pd_slot_info (ts_pend ts) si)).
Proof.
  intros Hg Hp. pose proof (ti_sorted _ (gi_t _ Hg)) as Hs. apply ginv_pend; [done|by apply pd_slot_info_sorted|by apply info_before; [..|done]; [|apply (ki_before _ _ _ (gi_k _ Hg))]|].
  intros s pk v Hv. apply (slot_info_version _ _ _ _ _ Hs) in Hv. by eapply kinv_known.
Qed.
Lemma insert_piece ts pk ty wv slot : ginv ts -> addable ts ty -> tpa_pubkey ty = pk ->
  let ts' := set_pend ts (pd_insert (ts_pend ts) pk ty wv slot).1 in ginv ts' /\ guar ts ts'.
Proof.
  intros Hg Ha Hp ts'. pose proof (ti_sorted _ (gi_t _ Hg)) as Hs. apply ginv_pend; [done|by apply pd_insert_sorted| |].
  - intros s s' H. apply (insert_parent _ _ _ _ _ _ _ Hs) in H. by apply (ki_before _ _ _ (gi_k _ Hg)).
  - intros s k v Hv. apply (insert_version _ _ _ _ _ _ _ _ Hs) in Hv. destruct (decide _) as [[-> ->]|_]; [destruct Hv as [[-> _]|[Hv _]]; [done|]|]; by eapply kinv_known.
Qed.
Lemma finalize_piece ts ord si : ginv ts -> (forall m, ord m ≡ₚ map_to_list m) ->
  let '(p, m) := pd_finalize (ts_pend ts) (si_slot si) in let l := (fun x => x.2) <$> ord m in
  ginv (set_pend ts p) /\ guar ts (set_pend ts p) /\
  Forall (fun x => addable (set_pend ts p) x.1.1) ((fun '((ty, wv), slot) => (ty, slot, wv)) <$> l : list (tpa * N * N)) /\
  Forall (addable (set_pend ts p)) ((fun x => x.1.1) <$> l).
Proof.
  intros Hg Hord. pose proof (ti_sorted _ (gi_t _ Hg)) as Hs. destruct (finalize_spec (ts_pend ts) (si_slot si) Hs) as (Hs2 & _ & Hget & _).
  destruct (finalize_versions (ts_pend ts) (si_slot si) Hs) as (_ & Hv1 & Hv2).
  destruct (pd_finalize (ts_pend ts) (si_slot si)) as [p m]. simpl in Hs2, Hget, Hv1, Hv2. intros l.
  destruct (ginv_pend ts p) as [G1 G2]; [done..| | |].
  { intros s s' H. apply (ki_before _ _ _ (gi_k _ Hg)). by apply (parent_sub (ts_pend ts) p). }
  { intros s pk v H. eapply kinv_known; [done|]. by apply Hv1. }
  split; [done|]. split; [done|]. assert (forall x, x ∈ l -> addable (set_pend ts p) x.1.1) as Hl.
  { intros x Hx. apply elem_of_list_fmap in Hx as ([pk [v s]] & -> & Hx). rewrite (Hord m) in Hx. apply elem_of_map_to_list in Hx. simpl.
    eapply addable_guar; [done|]. apply Hv2 in Hx. by destruct (kinv_known _ _ _ _ Hg Hx). }
  split; apply Forall_forall; intros y Hy; apply elem_of_list_fmap in Hy as ([[ty wv] s] & -> & Hy); by apply Hl in Hy.
Qed.
Lemma render_piece ts x slot wv : addable ts x -> exists o, tpa_to_acct x slot wv (ts_mints ts) = Done o.
Proof. intros (H1 & H2 & _). apply (tpa_to_acct_done (ts_ctr ts)); [done|]. intros t Ht. by apply H2. Qed.
Lemma row_piece ts t slot wv : row_known ts t -> exists o, token_to_acct t slot wv (ts_mints ts) = Done o.
Proof. intros H. unfold token_to_acct. unfold row_known in H. destruct (ta_deleted t); [eauto|]. destruct H as [[m ->] _]; [done|]. cbn [unwrap mbind res_bind]. eauto. Qed.
Lemma walk_piece ts pks conf ret : ginv ts -> allp (fun x => addable ts x.1.1) ret ->
  exists r, conf_walk (S (length (ts_pend ts))) (ts_pend ts) pks (Some conf) ret = Some r /\ allp (fun x => addable ts x.1.1) r /\ length r = length ret.
Proof.
  intros Hg Hr. pose proof (ti_sorted _ (gi_t _ Hg)) as Hs. destruct (conf_walk_ends (ts_pend ts) pks (Some conf) ret Hs) as [r H]; [apply before_acyclic, (ki_before _ _ _ (gi_k _ Hg))|].
  exists r. split; [done|]. split; [|by eapply conf_walk_len]. eapply conf_walk_allp; [done| |done|done]. intros s pk v Hv. by destruct (kinv_known _ _ _ _ Hg Hv).
Qed.
Lemma top_piece ts pks conf ret : ginv ts -> allp (fun x => addable ts x.1.1) ret -> allp (fun x => addable ts x.1.1) (proc_top pks conf (reverse (ts_pend ts)) ret).1.
Proof. intros Hg Hr. apply proc_top_allp; [|done]. intros s pk v Hv. apply (proj1 (version_reverse _ _ _ _)) in Hv. by destruct (kinv_known _ _ _ _ Hg Hv). Qed.
Lemma mint_piece ts m : ginv ts -> addable ts (TPMint m) -> exists ts', add_finalized ts (TPMint m) = Done ts' /\ ginv ts' /\ guar ts ts'.
Proof.
  intros Hg Ha. pose proof (few _ Hg) as Hc. destruct Ha as (Hok & _ & Ho). pose proof (gi_t _ Hg) as T.
  destruct (add_finalized_inv ts (TPMint m) T Hok Hc) as (ts' & Hts & T' & Hle & Hp & _). exists ts'. split; [done|].
  destruct Ho as (o & Hin & Hcf). pose proof (comes_mint _ _ _ Hcf) as Hom.
  destruct (add_finalized_finv E L ts (TPMint m) ts' T (ki_fin _ _ _ (gi_k _ Hg))) as [F' Hm']; [done|intros ? [= <-]; eauto|done|done|].
  assert (guar ts ts') as G.
  { simpl in Hts. destruct (ts_mint_ix ts !! ma_pubkey m) as [i|] eqn:Hi; injection Hts as <-; constructor; simpl; try done.
    - intros j m0 Hj. destruct (decide (i = j)) as [->|Hne]; [|rewrite lookup_insert_ne by done; eauto]. rewrite lookup_insert. eexists. split; [done|].
      apply (ti_mints _ T) in Hj. destruct (ti_ix _ T) as [Hinj _]. by eapply Hinj.
    - intros q j Hq. rewrite lookup_insert_ne; [done|]. congruence.
    - intros j m0 Hj. rewrite lookup_insert_ne; [eauto|]. pose proof (mints_below _ _ _ T Hj). lia. }
  split; [|done]. constructor; [done|..].
  - destruct (gi_k _ Hg) as [K1 K2 K3 K4]. constructor; [done|..]; rewrite Hp; [|done|done]. intros s pk v t Hv Ht. apply Hm'. by eapply K2.
  - simpl in Hts. destruct (ts_mint_ix ts !! ma_pubkey m) as [i|] eqn:Hi; injection Hts as <-; simpl; [apply (gi_n _ Hg)|]. rewrite map_size_insert_None by done. rewrite (gi_n _ Hg). lia.
  - assert (ts_table ts' = ts_table ts) as Htb by (simpl in Hts; destruct (ts_mint_ix ts !! ma_pubkey m); by injection Hts as <-). intros i t Hst Hd.
    rewrite Htb in Hst. eapply row_of_guar; [done|]. by eapply gi_rows.
  - rewrite Hp. intros s pk v t Hv Ht. eapply row_of_guar; [done|]. by eapply gi_pd.
  - assert (forall j, ts_mints ts' = <[j := m]> (ts_mints ts) -> forall i m0, ts_mints ts' !! i = Some m0 -> orig (TPMint m0)) as Hmm.
    { intros j -> i m0. destruct (decide (j = i)) as [->|Hne]; [rewrite lookup_insert; intros [= <-]; by exists o|]. rewrite lookup_insert_ne by done. apply (gi_mi _ Hg). }
    simpl in Hts. destruct (ts_mint_ix ts !! ma_pubkey m); injection Hts as <-; by eapply Hmm.
  - assert (ts_multi ts' = ts_multi ts) as -> by (simpl in Hts; destruct (ts_mint_ix ts !! ma_pubkey m); by injection Hts as <-). apply (gi_mu _ Hg).
Qed.
Lemma multi_piece ts m pk : ginv ts -> addable ts (TPMulti m pk) -> exists ts', add_finalized ts (TPMulti m pk) = Done ts' /\ ginv ts' /\ guar ts ts'.
Proof.
  intros Hg Ha. pose proof (few _ Hg) as Hc. destruct Ha as (Hok & _ & Ho). pose proof (gi_t _ Hg) as T.
  destruct (add_finalized_inv ts (TPMulti m pk) T Hok Hc) as (ts' & Hts & T' & Hle & Hp & _). exists ts'. split; [done|]. simpl in Hts. injection Hts as <-.
  split; [|by constructor; eauto]. destruct Hg as [_ [[F1 F2 F3] K2 K3 K4] Nn R P MI MU]. constructor; [done| |done..|]; [by constructor; [constructor|..]|].
  simpl. intros q m'. destruct (decide (pk = q)) as [->|Hne]; [rewrite lookup_insert; by intros [= <-]|]. rewrite lookup_insert_ne by done. apply MU.
Qed.
Lemma no_close ts pk : ginv ts -> orig (TPDeleted pk) -> ts_mint_ix ts !! pk = None.
Proof.
  intros Hg (o & Hin & Hcf). destruct (ts_mint_ix ts !! pk) as [i|] eqn:Hi; [|done]. destruct (fi_from _ _ _ (ki_fin _ _ _ (gi_k _ Hg)) _ _ Hi) as (o' & Hin' & Hn).
  apply comes_closes in Hcf. destruct HW as (_ & Hst & _). by destruct (Hst o' o pk Hin' Hin Hn).
Qed.
Definition piece_ok (ts : tstore) (r : res (tstore * tthr)) : Prop := exists ts' t', r = Done (ts', t') /\ ginv ts' /\ tho ts' t' /\ guar ts ts'.
Lemma piece_same ts t : ginv ts -> tho ts t -> piece_ok ts (Done (ts, t)).
Proof. intros Hg Ht. exists ts, t. split; [done|]. split; [done|]. split; [done|]. apply guar_refl. Qed.
Lemma piece_move ts ts' t' : ginv ts' -> guar ts ts' -> tho ts t' -> piece_ok ts (Done (ts', t')).
Proof. intros Hg G Ht. exists ts', t'. split; [done|]. split; [done|]. split; [|done]. by eapply tho_guar. Qed.
Lemma rows_piece ts (ixs : list nat) : ginv ts -> exists l, tb_by_index (ts_table ts) (list_to_set ixs) = Done l /\ Forall (row_known ts) l.
Proof.
  intros Hg. destruct (by_index_done E L ts (list_to_set ixs) (gi_t _ Hg) (ki_fin _ _ _ (gi_k _ Hg))) as (l & Hl & H). exists l. split; [done|]. apply Forall_forall. intros t Ht Hd. split; [by apply H|].
  destruct (from_stored ts (list_to_set ixs) l (gi_t _ Hg) Hl t Ht) as [i Hi]. by eapply (gi_rows _ Hg).
Qed.
Lemma tho_shown ts c l : tho ts (shown c l).
Proof. by destruct c. Qed.
#[local] Opaque add_finalized conf_walk.
Lemma piece_step ts t r : ginv ts -> tho ts t -> tpiece E X ts t = Some r -> piece_ok ts r.
Proof.
  intros Hg Ht Hp. pose proof (gi_t _ Hg) as T. pose proof (gi_k _ Hg) as K. destruct t; simpl in Hp; simpl in Ht; try done.
  - injection Hp as <-. apply piece_same; [done|]. by case_bool_decide.
  - injection Hp as <-. apply piece_same; [done|]. by destruct (_ || _).
  - injection Hp as <-. destruct (rep_exists _ (ti_table _ T)) as [m Hm]. destruct (tb_contains_spec _ m (d_pubkey a) (ti_table _ T) Hm) as (o & -> & _).
    cbn [mbind res_bind]. apply piece_same; [done|]. by destruct o.
  - injection Hp as <-. destruct Ht as [Hin Hn]. destruct (type_piece ts a c Hg Hin Hn) as (r & -> & Hr). cbn [mbind res_bind]. destruct r as [[[ty ix] ctr]|]; [|by apply piece_same].
    destruct (Hr ty ix ctr eq_refl) as (-> & -> & Ha & Hpk). rewrite set_ix_same. apply piece_same; [done|].
    assert (Forall (addable ts) [ty]) by (by constructor). by destruct c as [[]|].
  - destruct Ht as [Ha Hpk]. destruct (insert_piece ts _ _ (d_wv a) (d_slot a) Hg Ha Hpk) as [G1 G2]. destruct (pd_insert _ _ _ _ _) as [p b]. injection Hp as <-. by apply piece_move.
  - destruct l as [|x l]; [injection Hp as <-; by apply piece_same|]. apply Forall_cons in Ht as [Ha Hl]. destruct x as [tk|m|m pk|pk]; injection Hp as <-.
    + destruct (save_piece ts tk Hg Ha) as (tb & i & b & -> & G1 & G2). cbn [mbind res_bind]. apply piece_move; [done..|]. by destruct b.
    + destruct (mint_piece ts m Hg Ha) as (ts' & -> & G1 & G2). cbn [mbind res_bind]. by apply piece_move.
    + destruct (multi_piece ts m pk Hg Ha) as (ts' & -> & G1 & G2). cbn [mbind res_bind]. by apply piece_move.
    + destruct Ha as (_ & _ & Ho). rewrite (no_close _ _ Hg Ho). by apply piece_same.
  - injection Hp as <-. destruct (ginv_table ts (push_at (ta_mint t) i (ts_by_mint ts)) (ts_by_owner ts) (ts_table ts)) as [G1 G2]; [done|apply (ti_table _ T)|by left|apply (ti_live _ T)|done|].
    by apply piece_move.
  - injection Hp as <-. destruct (ginv_table ts (ts_by_mint ts) (push_at (prefix4 (ta_owner t)) i (ts_by_owner ts)) (ts_table ts)) as [G1 G2]; [done|apply (ti_table _ T)|by left|apply (ti_live _ T)|done|].
    by apply piece_move.
  - injection Hp as <-. destruct Ht as [Ho Hl]. rewrite (no_close _ _ Hg Ho). by apply piece_same.
  - injection Hp as <-. destruct Ht as [Ho Hl]. destruct (tb_index (ts_table ts) !! prefix4 pk) as [ixs|] eqn:Hk; [|by apply piece_same].
    destruct (del_key_piece ts pk ixs Hg Hk) as (G1 & G2 & G3). eexists _, _. split; [done|]. split; [done|]. split; [|done]. split; [done|]. split; [|done].
    eapply Forall_impl; [exact Hl|]. intros x. by apply addable_guar.
  - injection Hp as <-. destruct Ht as (Ho & Hl & Hlo). destruct (del_row_piece ts pk ixs Hg Hlo) as (tb & -> & G1 & G2). cbn [mbind res_bind]. by apply piece_move.
  - destruct Ht as [Hord Hpar]. destruct c; injection Hp as <-.
    + destruct (info_piece ts si Hg Hpar) as [G1 G2]. by apply piece_move.
    + apply piece_same; [done|]. by destruct (_ <? _).
    + apply piece_same; [done|]. by destruct (_ <? _).
  - injection Hp as <-. destruct (ginv_conf ts (si_slot si) Hg). by apply piece_move.
  - injection Hp as <-. destruct (info_piece ts si Hg Ht) as [G1 G2]. by apply piece_move.
  - injection Hp as <-. apply piece_same; [done|]. destruct (sm_get (si_slot si) (ts_pend ts)) as [b|] eqn:Hb; [|done]. split; [|done].
    apply Forall_forall. intros x Hx. apply elem_of_list_fmap in Hx as ([pk [ty wv]] & -> & Hx). apply elem_of_map_to_list in Hx. simpl.
    apply (kinv_known ts (si_slot si) pk (ty, wv) Hg). apply (version_get _ (ti_sorted _ T)). eauto.
  - injection Hp as <-. destruct (info_piece ts si Hg Ht) as [G1 G2]. by apply piece_move.
  - injection Hp as <-. destruct Ht as [Hord Hpar]. destruct (info_piece ts si Hg Hpar) as [G1 G2]. by apply piece_move.
  - injection Hp as <-. destruct (ginv_fin ts (si_slot si) Hg). by apply piece_move.
  - destruct Ht as [Hord Hpar]. pose proof (finalize_piece ts ord si Hg Hord) as H. destruct (pd_finalize _ _) as [p m]. injection Hp as <-.
    destruct H as (G1 & G2 & H1 & H2). eexists _, _. split; [done|]. by split_and!.
  - destruct Ht as [Hq Ha]. destruct q as [|[[x s] wv] q]; injection Hp as <-; [by apply piece_same|]. apply Forall_cons in Hq as [Hx Hq].
    destruct (render_piece ts x s wv Hx) as [o ->]. cbn [mbind res_bind]. by apply piece_same.
  - destruct c; injection Hp as <-; by apply piece_same.
  - injection Hp as <-. assert (piece_ok ts (Done (ts, XPendConf pk conf [None]))) as Hd.
    { apply piece_same; [done|]. split; [done|]. apply (allp_none _ 1). }
    destruct c; [|done..]. pose proof (top_piece ts [pk] conf [None] Hg (allp_none _ 1)) as H1. pose proof (proc_top_len [pk] conf (reverse (ts_pend ts)) [None]) as H2.
    destruct (proc_top _ _ _ _) as [ret more]. simpl in H1, H2. destruct more; [by apply piece_same|].
    destruct ret as [|o ret]; [done|]. cbn [head unwrap mbind res_bind]. apply piece_same; [done|]. destruct o as [[[ty wv] s]|]; [|done]. apply (H1 ((ty, wv), s)). left.
  - injection Hp as <-. destruct Ht as [Hl Ha]. destruct (walk_piece ts [pk] conf ret Hg Ha) as (r & -> & Hr & Hlr). cbn [unwrap mbind res_bind].
    destruct r as [|o r]; [simpl in Hlr; lia|]. cbn [head unwrap mbind res_bind]. apply piece_same; [done|]. destruct o as [[[ty wv] s]|]; [|done]. apply (Hr ((ty, wv), s)). left.
  - injection Hp as <-. destruct (render_piece ts ty slot 0 Ht) as [o ->]. cbn [mbind res_bind]. by apply piece_same.
  - injection Hp as <-. destruct (ts_multi ts !! pk) as [m|] eqn:Hm; [|by apply piece_same]. unfold multisig_to_acct. rewrite (proj2 (Nat.leb_le _ _)) by (by eapply ti_multi).
    cbn [mbind res_bind]. by apply piece_same.
  - injection Hp as <-. destruct (ts_mint_ix ts !! pk) as [i|] eqn:Hi; [|by apply piece_same]. destruct (fi_ix _ _ _ (ki_fin _ _ _ K) _ _ Hi) as [m ->]. cbn [unwrap mbind res_bind]. by apply piece_same.
  - injection Hp as <-. destruct (rep_exists _ (ti_table _ T)) as [m0 Hrep]. rewrite (tb_get_spec _ _ pk (ti_table _ T) Hrep). cbn [mbind res_bind]. apply piece_same; [done|].
    destruct (m0 !! pk) as [t|] eqn:Ht'; [|done]. destruct (ta_deleted t) eqn:Hdl; [done|]. apply Hrep in Ht' as [i [Hst _]]. intros _. split; [by eapply (fi_tok _ _ _ (ki_fin _ _ _ K))|by eapply (gi_rows _ Hg)].
  - injection Hp as <-. by apply piece_same.
  - injection Hp as <-. destruct (row_piece ts t slot 0 Ht) as [o ->]. cbn [mbind res_bind]. by apply piece_same.
  - injection Hp as <-. apply piece_same; [done|]. destruct (_ && _); [done|]. destruct fl as [cs|]; [|done]. destruct (Ht cs eq_refl) as [H1 H2].
    destruct (owner_mint_filter p cs) as [[o|] [m|]] eqn:Hom; simpl; [|done|done|by case_bool_decide]. intros q [= <-]. by eapply H2.
  - injection Hp as <-. apply piece_same; [done|]. destruct m as [m|]; [by apply Ht|done].
  - injection Hp as <-. destruct Ht as [i ->]. cbn [unwrap mbind res_bind]. by apply piece_same.
  - injection Hp as <-. destruct ixs as [ixs|]; [|apply piece_same; [done|apply tho_shown]]. destruct (rows_piece ts ixs Hg) as (l & -> & Hl). cbn [mbind res_bind]. apply piece_same; [done|].
    simpl. apply Forall_forall. intros t Ht'. apply elem_of_list_filter in Ht' as [_ Ht']. by eapply Forall_forall in Hl.
  - injection Hp as <-. destruct (ts_mint_ix ts !! m) as [i|]; [|apply piece_same; [done|apply tho_shown]]. destruct (ts_by_mint ts !! i) as [ixs|]; [|apply piece_same; [done|apply tho_shown]].
    destruct (rows_piece ts ixs Hg) as (l & -> & Hl). cbn [mbind res_bind]. by apply piece_same.
  - injection Hp as <-. destruct (keep_all_done E cs ((fun m => mint_to_acct m.2 fin 0) <$> map_to_list (ts_mints ts))) as [r ->].
    + intros a Ha. apply elem_of_list_fmap in Ha as ([i m] & -> & _). simpl. eauto.
    + intros d v Hd. specialize (Ht d v Hd). destruct (allows E d v); [eauto|done].
    + cbn [mbind res_bind]. apply piece_same; [done|apply tho_shown].
  - destruct q as [|t q]; injection Hp as <-; [apply piece_same; [done|apply tho_shown]|]. apply Forall_cons in Ht as [Hx Hq].
    destruct (row_piece ts t fin 0 Hx) as [o ->]. cbn [mbind res_bind]. by apply piece_same.
  - injection Hp as <-. by apply piece_same.
  - injection Hp as <-. apply piece_same; [done|]. pose proof (allp_none (fun x => addable ts x.1.1) (length l)) as H0. destruct c; [|done..].
    pose proof (top_piece ts (d_pubkey <$> l) conf _ Hg H0) as H1. destruct (proc_top _ _ _ _) as [ret more]. by destruct more.
  - injection Hp as <-. destruct (walk_piece ts (d_pubkey <$> l) conf ret Hg Ht) as (r & -> & Hr & _). cbn [unwrap mbind res_bind]. by apply piece_same.
  - destruct l as [|a l]; [destruct ps; injection Hp as <-; by apply piece_same|]. destruct ps as [|o ps]; injection Hp as <-; [by apply piece_same|].
    assert (allp (fun x => addable ts x.1.1) ps) as Hps by (intros x Hx; apply Ht; by right). destruct o as [[[ty wv] s]|]; cbn [mbind res_bind]; [|by apply piece_same].
    destruct (render_piece ts ty s wv) as [x ->]; [apply (Ht ((ty, wv), s)); left|]. cbn [mbind res_bind]. by apply piece_same.
Qed.
(** *** Executions *)
Definition cinv (cs : tconc) : Prop := ginv (tc_ts cs) /\ Forall (tho (tc_ts cs)) (tc_thr cs).
Lemma ginv_empty : ginv ts_empty.
Proof.
  constructor; [apply tinv_empty| |done|..]; [constructor; [constructor|..]|..]; simpl.
  - intros i t [_ H]. done.
  - intros q i H. by rewrite lookup_empty in H.
  - intros q i H. by rewrite lookup_empty in H.
  - intros s pk v t (b & Hb & _). by apply elem_of_nil in Hb.
  - intros s pk v (b & Hb & _). by apply elem_of_nil in Hb.
  - intros s s' (b & Hb & _). by apply elem_of_nil in Hb.
  - intros i t [_ H]. done.
  - intros s pk v t (b & Hb & _). by apply elem_of_nil in Hb.
  - intros i m H. by rewrite lookup_empty in H.
  - intros i m H. by rewrite lookup_empty in H.
Qed.
Lemma call_tho cs t : is_call t = true -> calm_call E L cs t -> tho (tc_ts cs) t.
Proof.
  intros Hc [H1 H2]. destruct t; try done; simpl in *.
  - destruct (H1 _ eq_refl). by split.
  - destruct (H1 _ eq_refl) as [Hin _]. destruct HW as (Hok & _ & _ & Hpar & _). eapply Forall_forall in Hok; [|done]. split; [done|]. by eapply Hpar.
  - by eapply H2.
  - destruct (H1 _ eq_refl) as [Hin _]. destruct HW as (Hok & _). eapply Forall_forall in Hok; [|done]. done.
Qed.
Lemma cinv_step cs j t ts t' : cinv cs -> tc_thr cs !! j = Some t -> tpiece E X (tc_ts cs) t = Some (Done (ts, t')) ->
  cinv (TConc ts (<[j := t']> (tc_thr cs))) /\ guar (tc_ts cs) ts.
Proof.
  intros [Hg Hth] Hj Hp. pose proof (Forall_lookup_1 _ _ _ _ Hth Hj) as Ht. destruct (piece_step _ _ _ Hg Ht Hp) as (ts' & t1 & [= <- <-] & Hg' & Ht1 & G).
  split; [|done]. split; [done|]. simpl. apply Forall_insert; [|done]. eapply Forall_impl; [exact Hth|]. intros x. by apply tho_guar.
Qed.
Lemma cinv_call cs t : cinv cs -> is_call t = true -> calm_call E L cs t -> cinv (TConc (tc_ts cs) (tc_thr cs ++ [t])).
Proof. intros [Hg Hth] Hc Ho. split; [done|]. simpl. apply Forall_app. split; [done|]. constructor; [|done]. by apply call_tho. Qed.
Lemma reach_cinv cs cs' : treach E X (calm_call E L) cs cs' -> cinv cs -> cinv cs' /\ guar (tc_ts cs) (tc_ts cs').
Proof.
  induction 1 as [cs|cs j t ts t' cs2 Hj Hp _ IH|cs t cs2 Hc Ho _ IH]; intros Hi.
  - split; [done|]. apply guar_refl.
  - destruct (cinv_step _ _ _ _ _ Hi Hj Hp) as [Hi' G]. destruct (IH Hi') as [? ?]. split; [done|]. by eapply guar_trans.
  - apply IH. by apply cinv_call.
Qed.
Lemma cinv_empty : cinv tc_empty.
Proof. split; [apply ginv_empty|constructor]. Qed.
Lemma cinv_nopanic cs j t : cinv cs -> tc_thr cs !! j = Some t -> tpiece E X (tc_ts cs) t <> Some Panic.
Proof. intros [Hg Hth] Hj Hp. pose proof (Forall_lookup_1 _ _ _ _ Hth Hj) as Ht. by destruct (piece_step _ _ _ Hg Ht Hp) as (ts' & t1 & ? & _). Qed.
End conc.
