(** Concurrent calls of the token store: the indices by owner and mint. *)
From Verif Require Import Base SMap DataModel BincodeModel BincodeProofs FilterModel FilterProofs StoreModel TokenModel TokenProofs TokenProps SplModel SplProofs TokenUtilsModel
  TokenUtilsProofs TokenPendModel TokenPendSpec TokenPendProofs TokenPendProps TokenUtilsProps TokenStoreModel TokenStoreSpec TokenStoreProofs TokenStoreViews TokenStoreProps TokenStoreOrder
  TokenStoreQuery TokenStoreQueryProps TokenStoreSafe TokenConcModel TokenConcSpec TokenConcProofs.
#[local] Arguments le : simpl never.
#[local] Arguments unle : simpl never.
#[local] Opaque to_bytes from_bytes peek_pubkey.

Lemma elem_other {A} (l : list A) j t t' x : l !! j = Some t -> x ∈ l -> x <> t -> x ∈ <[j := t']> l.
Proof.
  intros Hj Hx Hne. apply elem_of_list_lookup in Hx as [k Hk]. apply elem_of_list_lookup. exists k. rewrite list_lookup_insert_ne; [done|]. intros ->. congruence.
Qed.
Lemma elem_new {A} (l : list A) j t t' : l !! j = Some t -> t' ∈ <[j := t']> l.
Proof. intros Hj. apply elem_of_list_lookup. exists j. apply list_lookup_insert. by eapply lookup_lt_Some. Qed.
Lemma elem_push k k' i j m : i ∈ default [] (m !! k) -> i ∈ default [] (push_at k' j m !! k).
Proof.
  intros H. unfold push_at. destruct (decide (k' = k)) as [->|Hne]; [|by rewrite lookup_insert_ne]. rewrite lookup_insert. simpl. apply elem_of_app. by left.
Qed.
Lemma elem_pushed k i m : i ∈ default [] (push_at k i m !! k).
Proof. unfold push_at. rewrite lookup_insert. simpl. apply elem_of_app. right. by apply elem_of_list_singleton. Qed.
Lemma push_inv k k' i j m : i ∈ default [] (push_at k' j m !! k) -> i ∈ default [] (m !! k) \/ (k = k' /\ i = j).
Proof.
  unfold push_at. destruct (decide (k' = k)) as [->|Hne]; [|rewrite lookup_insert_ne by done; by left]. rewrite lookup_insert. simpl.
  rewrite elem_of_app, elem_of_list_singleton. naive_solver.
Qed.

Definition live (ts : tstore) (i : nat) (t : token_account) : Prop := stored (ts_table ts) i t /\ ta_deleted t = false.
(** A call that took position [i] out of the key index and still has to clear the row; that still has to add position [i] to the
    accounts of the owner prefix [o]; of the mint [m]. *)
Definition holds (x : tthr) (i : nat) : Prop := match x with XDelRow _ ixs _ _ => i ∈ ixs | _ => False end.
Definition owes_o (x : tthr) (i : nat) (o : N) : Prop := match x with XByMint tk j _ _ | XByOwner tk j _ _ => j = i /\ prefix4 (ta_owner tk) = o | _ => False end.
Definition owes_m (x : tthr) (i : nat) (m : N) : Prop := match x with XByMint tk j _ _ => j = i /\ ta_mint tk = m | _ => False end.

Section index.
Context (E : ext) (X : lz4x) (L : list tsop) (HW : calm_world E L) (HT : tidy E L).
Lemma row_token ts t : row_of E L ts t -> exists o r, o ∈ L /\ op_token E o (ta_pubkey t) r /\ ta_owner t = sa_owner r /\ ts_mint_ix ts !! sa_mint r = Some (ta_mint t).
Proof. intros (o & a & p & v & r & Ho & Ha & [_ _ Hv _] & Hu & Ht & Hm). exists o, r. split; [done|]. rewrite Ht. cbn [of_spl_account ta_pubkey ta_owner]. split; [by exists a, v|done]. Qed.
Lemma row_owner ts t t' : keeps_owner E L -> row_of E L ts t -> row_of E L ts t' -> ta_pubkey t = ta_pubkey t' -> ta_owner t = ta_owner t'.
Proof.
  intros HO (o & r & Ho & Hop & -> & _)%row_token (o' & r' & Ho' & Hop' & -> & _)%row_token He. rewrite He in Hop. by apply (HO o o' (ta_pubkey t') r r').
Qed.
Lemma row_mint ts t t' : keeps_mint E L -> row_of E L ts t -> row_of E L ts t' -> ta_pubkey t = ta_pubkey t' -> ta_mint t = ta_mint t'.
Proof.
  intros HM (o & r & Ho & Hop & _ & H1)%row_token (o' & r' & Ho' & Hop' & _ & H2)%row_token He. rewrite He in Hop.
  rewrite (HM _ _ _ _ _ Ho Ho' Hop Hop') in H1. congruence.
Qed.
Definition thq (ts : tstore) (x : tthr) : Prop :=
  match x with
  | XDelRow pk ixs _ _ => (forall i i', i ∈ ixs -> i' ∈ ixs -> i = i') /\ forall i t, i ∈ ixs -> live ts i t -> ta_pubkey t = pk
  | XByMint tk i _ _ | XByOwner tk i _ _ => (i < length (tb_accounts (ts_table ts)))%nat /\ (forall t, live ts i t -> ta_pubkey t = ta_pubkey tk) /\ row_of E L ts tk
  | _ => True
  end.
Record cfg (cs : tconc) : Prop := Cfg {
  cf_inv : cinv E L cs;
  cf_thr : Forall (thq (tc_ts cs)) (tc_thr cs);
  cf_key : forall i t, live (tc_ts cs) i t -> at_pos (ts_table (tc_ts cs)) (ta_pubkey t) i t \/ exists x, x ∈ tc_thr cs /\ holds x i;
  cf_own : keeps_owner E L -> forall i t, live (tc_ts cs) i t ->
    i ∈ default [] (ts_by_owner (tc_ts cs) !! prefix4 (ta_owner t)) \/ exists x, x ∈ tc_thr cs /\ owes_o x i (prefix4 (ta_owner t));
  cf_mint : keeps_mint E L -> forall i t, live (tc_ts cs) i t ->
    i ∈ default [] (ts_by_mint (tc_ts cs) !! ta_mint t) \/ exists x, x ∈ tc_thr cs /\ owes_m x i (ta_mint t);
  cf_only : keeps_mint E L -> forall i t m, live (tc_ts cs) i t -> i ∈ default [] (ts_by_mint (tc_ts cs) !! m) -> ta_mint t = m;
  cf_len : forall i m, i ∈ default [] (ts_by_mint (tc_ts cs) !! m) -> (i < length (tb_accounts (ts_table (tc_ts cs))))%nat;
}.
(** Rows are appended, overwritten for the same key, or cleared. *)
Record rows_mono (ts ts' : tstore) : Prop := RowsMono {
  rm_len : (length (tb_accounts (ts_table ts)) <= length (tb_accounts (ts_table ts')))%nat;
  rm_row : forall i t', (i < length (tb_accounts (ts_table ts)))%nat -> live ts' i t' -> exists t, live ts i t /\ ta_pubkey t = ta_pubkey t';
}.
Lemma rows_mono_refl ts ts' : ts_table ts' = ts_table ts -> rows_mono ts ts'.
Proof. intros H. constructor; unfold live; rewrite H; [done|]. eauto. Qed.
Lemma thq_mono ts ts' x : rows_mono ts ts' -> guar ts ts' -> (forall i, holds x i -> loose ts i) -> thq ts x -> thq ts' x.
Proof.
  intros [Hl Hr] G Hlo. assert (forall tk i, (i < length (tb_accounts (ts_table ts)))%nat /\ (forall t, live ts i t -> ta_pubkey t = ta_pubkey tk) /\ row_of E L ts tk ->
    (i < length (tb_accounts (ts_table ts')))%nat /\ (forall t, live ts' i t -> ta_pubkey t = ta_pubkey tk) /\ row_of E L ts' tk) as Hx.
  { intros tk i (H1 & H2 & H3). split; [lia|]. split; [|by eapply row_of_guar]. intros t Ht. destruct (Hr _ _ H1 Ht) as (t0 & Ht0 & <-). by apply H2. }
  destruct x; simpl; try done; try (by apply Hx). intros [H1 H2]. split; [done|]. intros i t Hi Ht. destruct (Hlo i Hi) as [Hli _]. destruct (Hr _ _ Hli Ht) as (t0 & Ht0 & <-). by eapply H2.
Qed.
Lemma holds_loose ts x i : tho E L ts x -> holds x i -> loose ts i.
Proof. destruct x; simpl; try done. intros (_ & _ & H) Hi. by eapply Forall_forall in H. Qed.
Lemma thq_all ts ts' thr : rows_mono ts ts' -> guar ts ts' -> Forall (tho E L ts) thr -> Forall (thq ts) thr -> Forall (thq ts') thr.
Proof.
  intros Hm G H1 H2. apply Forall_forall. intros x Hx. eapply Forall_forall in H1, H2; [|done..]. eapply thq_mono; [done..| |done]. intros i. by apply holds_loose.
Qed.
Lemma cfg_piece ts ts' thr j t t' : cfg (TConc ts thr) -> thr !! j = Some t -> cinv E L (TConc ts' (<[j := t']> thr)) -> guar ts ts' -> rows_mono ts ts' -> thq ts' t' ->
  (forall i y, live ts' i y -> at_pos (ts_table ts') (ta_pubkey y) i y \/ holds t' i \/ exists x, x ∈ thr /\ x <> t /\ holds x i) ->
  (keeps_owner E L -> forall i y, live ts' i y -> i ∈ default [] (ts_by_owner ts' !! prefix4 (ta_owner y)) \/ owes_o t' i (prefix4 (ta_owner y)) \/
     exists x, x ∈ thr /\ x <> t /\ owes_o x i (prefix4 (ta_owner y))) ->
  (keeps_mint E L -> forall i y, live ts' i y -> i ∈ default [] (ts_by_mint ts' !! ta_mint y) \/ owes_m t' i (ta_mint y) \/ exists x, x ∈ thr /\ x <> t /\ owes_m x i (ta_mint y)) ->
  (keeps_mint E L -> forall i y m, live ts' i y -> i ∈ default [] (ts_by_mint ts' !! m) -> ta_mint y = m) ->
  (forall i m, i ∈ default [] (ts_by_mint ts' !! m) -> (i < length (tb_accounts (ts_table ts')))%nat) ->
  cfg (TConc ts' (<[j := t']> thr)).
Proof.
  intros [C1 C2 C3 C4 C5 C6 C7] Hj Hi G Hrm Ht H1 H2 H3 H4 H5. pose proof (elem_new thr j t t' Hj) as Hn.
  constructor; simpl; simpl in *; try done.
  - apply Forall_insert; [|done]. destruct C1 as [_ C1]. by eapply thq_all.
  - intros i y Hy. destruct (H1 i y Hy) as [?|[?|(x & ? & ? & ?)]]; [by left|right; eauto|]. right. exists x. split; [|done]. by eapply elem_other.
  - intros HO i y Hy. destruct (H2 HO i y Hy) as [?|[?|(x & ? & ? & ?)]]; [by left|right; eauto|]. right. exists x. split; [|done]. by eapply elem_other.
  - intros HM i y Hy. destruct (H3 HM i y Hy) as [?|[?|(x & ? & ? & ?)]]; [by left|right; eauto|]. right. exists x. split; [|done]. by eapply elem_other.
Qed.
(** Pieces that leave the table and the indices alone, in calls that owe nothing. *)
Lemma cfg_same ts ts' thr j t t' : cfg (TConc ts thr) -> thr !! j = Some t -> cinv E L (TConc ts' (<[j := t']> thr)) -> guar ts ts' ->
  ts_table ts' = ts_table ts -> ts_by_owner ts' = ts_by_owner ts -> ts_by_mint ts' = ts_by_mint ts -> thq ts' t' ->
  (forall i, ~ holds t i) -> (forall i o, ~ owes_o t i o) -> (forall i m, ~ owes_m t i m) -> cfg (TConc ts' (<[j := t']> thr)).
Proof.
  intros HC Hj Hi G Ht Ho Hm Hq H1 H2 H3. destruct HC as [C1 C2 C3 C4 C5 C6 C7] eqn:HCe. clear HCe. simpl in *.
  eapply cfg_piece; [exact HC|done..| |done| | | | |].
  - by apply rows_mono_refl.
  - unfold live. rewrite Ht. intros i y Hy. destruct (C3 i y Hy) as [?|(x & ? & ?)]; [by left|]. right; right. exists x. split_and!; try done. intros ->. by eapply H1.
  - unfold live. rewrite Ht, Ho. intros HO i y Hy. destruct (C4 HO i y Hy) as [?|(x & ? & ?)]; [by left|]. right; right. exists x. split_and!; try done. intros ->. by eapply H2.
  - unfold live. rewrite Ht, Hm. intros HM i y Hy. destruct (C5 HM i y Hy) as [?|(x & ? & ?)]; [by left|]. right; right. exists x. split_and!; try done. intros ->. by eapply H3.
  - unfold live. rewrite Ht, Hm. done.
  - by rewrite Ht, Hm.
Qed.
Lemma cfg_save ts thr j tk l r tb i b : cfg (TConc ts thr) -> thr !! j = Some (XAdds (TPToken tk :: l) r) -> tb_save (ts_table ts) tk = Done (tb, i, b) ->
  let ts' := set_table ts (ts_by_mint ts) (ts_by_owner ts) tb in let t' := if b then XByMint tk i l r else XAdds l r in
  cinv E L (TConc ts' (<[j := t']> thr)) -> guar ts ts' -> cfg (TConc ts' (<[j := t']> thr)).
Proof.
  intros HC Hj Hs ts' t' Hi G. pose proof (cf_inv _ HC) as [Hg Hth]. simpl in Hg, Hth. pose proof (Forall_lookup_1 _ _ _ _ Hth Hj) as Ht. simpl in Ht. apply Forall_cons in Ht as [Ha _].
  pose proof (addable_good E L HW _ _ Hg Ha) as Hgd. pose proof (gi_t _ _ _ Hg) as T.
  destruct (tb_save_spec _ tk (ti_table _ T) Hgd) as (tb1 & i1 & b1 & Hs1 & Hok & Hat & Hoth & Hold & Hnew & Hsame & Hlen). rewrite Hs in Hs1. injection Hs1 as <- <- <-.
  assert (ta_deleted tk = false) as Hdk by (by destruct Ha as ((_ & _ & ?) & _)).
  assert (forall k y, live ts' k y -> (k = i /\ y = tk) \/ (k <> i /\ live ts k y)) as Hlv.
  { intros k y [Hy Hd]. destruct (decide (k = i)) as [->|Hne]; [left; split; [done|]; by apply (stored_fun _ _ _ _ Hy (proj1 Hat))|]. right. split; [done|]. split; [|done].
    destruct Hy as [? Hy]. split; [done|]. simpl in Hy. by rewrite <- Hsame. }
  assert (rows_mono ts ts') as Hrm.
  { constructor; [done|]. intros k y Hk Hy. destruct (Hlv k y Hy) as [[-> ->]|[_ ?]]; [|by exists y]. destruct b; [destruct Hnew as [-> _]; [done|lia]|].
    destruct Hold as (t0 & Hat0); [done|]. exists t0. split; [|by destruct Hat0 as (_ & ? & _)]. split; [apply Hat0|]. by eapply (ti_live _ T). }
  assert (row_of E L ts tk) as Hrk by (by destruct Ha as (_ & Ha & _); destruct (Ha tk eq_refl)).
  destruct HC as [C1 C2 C3 C4 C5 C6 C7] eqn:HCe. clear HCe. simpl in *. assert (i < length (tb_accounts tb))%nat as Hilt by (by eapply stored_lt, Hat).
  assert (b = false -> exists t0, live ts i t0 /\ ta_pubkey t0 = ta_pubkey tk) as Hprev.
  { intros ->. destruct Hold as (t0 & Hat0); [done|]. exists t0. split; [|by destruct Hat0 as (_ & ? & _)]. split; [apply Hat0|]. by eapply (ti_live _ T). }
  eapply cfg_piece; [exact HC|done|done|done|done| | | | | |].
  - unfold t'. destruct b; [|done]. simpl. split; [done|]. split; [|by eapply row_of_guar]. intros y Hy. destruct (Hlv i y Hy) as [[_ ->]|[? _]]; done.
  - intros k y Hy. destruct (Hlv k y Hy) as [[-> ->]|[Hne Hy0]]; [by left|]. destruct (C3 k y Hy0) as [Hp|(x & Hx & Hh)].
    + left. destruct (decide (ta_pubkey y = ta_pubkey tk)) as [He|Hnk]; [|by apply Hoth]. exfalso. rewrite He in Hp. destruct b.
      * destruct Hnew as [_ Hn]; [done|]. by eapply Hn.
      * destruct Hold as (t0 & Hat0); [done|]. apply Hne. by destruct (at_pos_fun _ _ _ _ _ _ (ti_table _ T) Hp Hat0).
    + right; right. exists x. split_and!; try done. by intros ->.
  - intros HO k y Hy. destruct (Hlv k y Hy) as [[-> ->]|[Hne Hy0]].
    + destruct b; [right; left; simpl; done|]. destruct Hprev as (t0 & H0 & Hp0); [done|].
      rewrite <- (row_owner ts t0 tk HO); [|by eapply gi_rows; [|apply H0..]|done|done]. destruct (C4 HO i t0 H0) as [?|(x & Hx & Hh)]; [by left|]. right; right. exists x. split_and!; try done. by intros ->.
    + destruct (C4 HO k y Hy0) as [?|(x & Hx & Hh)]; [by left|]. right; right. exists x. split_and!; try done. by intros ->.
  - intros HM k y Hy. destruct (Hlv k y Hy) as [[-> ->]|[Hne Hy0]].
    + destruct b; [right; left; simpl; done|]. destruct Hprev as (t0 & H0 & Hp0); [done|].
      rewrite <- (row_mint ts t0 tk HM); [|by eapply gi_rows; [|apply H0..]|done|done]. destruct (C5 HM i t0 H0) as [?|(x & Hx & Hh)]; [by left|]. right; right. exists x. split_and!; try done. by intros ->.
    + destruct (C5 HM k y Hy0) as [?|(x & Hx & Hh)]; [by left|]. right; right. exists x. split_and!; try done. by intros ->.
  - intros HM k y m Hy Hk. destruct (Hlv k y Hy) as [[-> ->]|[Hne Hy0]]; [|by eapply C6]. pose proof (C7 _ _ Hk). destruct b; [destruct Hnew as [-> _]; [done|lia]|].
    destruct Hprev as (t0 & H0 & Hp0); [done|]. rewrite <- (row_mint ts t0 tk HM); [by eapply C6|by eapply gi_rows; [|apply H0..]|done|done].
  - intros k m Hk. pose proof (C7 _ _ Hk). simpl. lia.
Qed.
Lemma cfg_del_key ts thr j pk l r ixs : cfg (TConc ts thr) -> thr !! j = Some (XDelKey pk l r) -> tb_index (ts_table ts) !! prefix4 pk = Some ixs ->
  let ts' := set_table ts (ts_by_mint ts) (ts_by_owner ts) (tb_del_key (ts_table ts) pk) in
  cinv E L (TConc ts' (<[j := XDelRow pk ixs l r]> thr)) -> guar ts ts' -> cfg (TConc ts' (<[j := XDelRow pk ixs l r]> thr)).
Proof.
  intros HC Hj Hk ts' Hi G. pose proof (cf_inv _ HC) as [Hg Hth]. simpl in Hg, Hth. pose proof (Forall_lookup_1 _ _ _ _ Hth Hj) as Ht. simpl in Ht. destruct Ht as [(o & Ho & Hcf) _].
  pose proof (gi_t _ _ _ Hg) as T. assert (forall i y, live ts' i y <-> live ts i y) as Hlv by done.
  destruct HC as [C1 C2 C3 C4 C5 C6 C7] eqn:HCe. clear HCe. simpl in *.
  assert (forall i, i ∈ ixs -> exists y, live ts i y /\ ta_pubkey y = pk) as Hix.
  { intros i Hin. destruct (to_bucket _ (ti_table _ T) _ _ Hk) as [_ Hb]. destruct (Hb i Hin) as (y & Hst & Hp). assert (ta_deleted y = false) as Hd.
    { eapply (ti_live _ T (ta_pubkey y) i y). split; [done|]. split; [done|]. rewrite Hp. eauto. }
    exists y. split; [done|]. destruct (row_token ts y) as (o' & r' & Ho' & Hop & _); [by eapply gi_rows|].
    destruct (HT _ _ _ Ho' Hop o Ho) as (_ & _ & _ & Hnc). apply comes_pubkey in Hcf as (a & Ha & Hpa). simpl in Hpa.
    destruct (decide (ta_pubkey y = pk)) as [|Hne]; [done|]. destruct Hnc. exists a. split; [done|]. rewrite Hpa. split; [done|]. apply first4_prefix. by rewrite Hp. }
  eapply cfg_piece; [exact HC|done|done|done| | | | | | |].
  - by constructor; eauto.
  - simpl. split.
    + intros i i' H1 H2. destruct (Hix i H1) as (y & [Hy _] & Hp), (Hix i' H2) as (y' & [Hy' _] & Hp'). eapply (to_uniq _ (ti_table _ T)); [done..|congruence].
    + intros i y Hin [Hy _]. destruct (Hix i Hin) as (y' & [Hy' _] & Hp'). by rewrite (stored_fun _ _ _ _ Hy Hy').
  - intros i y Hy. apply Hlv in Hy. destruct (C3 i y Hy) as [(H1 & H2 & jxs & H3 & H4)|(x & Hx & Hh)].
    + destruct (decide (prefix4 (ta_pubkey y) = prefix4 pk)) as [He|Hne].
      * right; left. simpl. rewrite He, Hk in H3. by injection H3 as <-.
      * left. split; [done|]. split; [done|]. exists jxs. split; [|done]. simpl. rewrite lookup_delete_ne; [done|]. by intros ?.
    + right; right. exists x. split_and!; try done. by intros ->.
  - intros HO i y Hy. destruct (C4 HO i y Hy) as [?|(x & Hx & Hh)]; [by left|]. right; right. exists x. split_and!; try done. by intros ->.
  - intros HM i y Hy. destruct (C5 HM i y Hy) as [?|(x & Hx & Hh)]; [by left|]. right; right. exists x. split_and!; try done. by intros ->.
  - done.
  - done.
Qed.
Lemma cfg_del_row ts thr j pk l r ixs tb : cfg (TConc ts thr) -> thr !! j = Some (XDelRow pk ixs l r) -> tb_del_row (ts_table ts) pk ixs = Done tb ->
  let ts' := set_table ts (ts_by_mint ts) (ts_by_owner ts) tb in
  cinv E L (TConc ts' (<[j := XAdds l r]> thr)) -> guar ts ts' -> cfg (TConc ts' (<[j := XAdds l r]> thr)).
Proof.
  intros HC Hj Hs ts' Hi G. pose proof (cf_inv _ HC) as [Hg Hth]. simpl in Hg, Hth. pose proof (Forall_lookup_1 _ _ _ _ Hth Hj) as Ht. simpl in Ht. destruct Ht as (_ & _ & Hlo).
  pose proof (Forall_lookup_1 _ _ _ _ (cf_thr _ HC) Hj) as [Hq1 Hq2]. simpl in Hq1, Hq2. pose proof (gi_t _ _ _ Hg) as T. unfold tb_del_row in Hs.
  destruct (find_pk_spec (ts_table ts) pk ixs) as (o & Ho & Hspec).
  { intros i Hin. eapply Forall_forall in Hlo as [Hl _]; [|done]. apply lookup_lt_is_Some in Hl as [v Hv]. destruct (to_all _ (ti_table _ T) _ _ Hv) as (t & Hgd & ->). exists t. by split. }
  rewrite Ho in Hs. cbn [mbind res_bind] in Hs. injection Hs as Hs.
  assert (tb_index tb = tb_index (ts_table ts)) as Hix by (by rewrite <- Hs; destruct o).
  assert (forall k y, live ts' k y -> live ts k y /\ k ∉ ixs) as Hlv.
  { intros k y [Hy Hd]. simpl in Hy. destruct o as [i|].
    - destruct Hspec as (Hin & _). rewrite <- Hs in Hy. eapply Forall_forall in Hlo as [Hl _]; [|done].
      apply stored_insert in Hy as [[-> ->]|[Hne Hy]]; [done| |apply good_deleted|done]. split; [done|]. intros Hk. by apply Hne, Hq1.
    - rewrite <- Hs in Hy. split; [done|]. intros Hk. eapply Hspec; [done..|]. by eapply Hq2. }
  destruct HC as [C1 C2 C3 C4 C5 C6 C7] eqn:HCe. clear HCe. simpl in *.
  assert (length (tb_accounts tb) = length (tb_accounts (ts_table ts))) as Hlen by (rewrite <- Hs; destruct o; [apply insert_length|done]).
  eapply cfg_piece; [exact HC|done|done|done| | | | | | |].
  - constructor; [simpl; lia|]. intros k y _ Hy. exists y. split; [|done]. by apply Hlv.
  - done.
  - intros k y Hy. pose proof Hy as [Hst _]. apply Hlv in Hy as [Hy Hn]. destruct (C3 k y Hy) as [(H1 & H2 & jxs & H3 & H4)|(x & Hx & Hh)].
    + left. split; [done|]. split; [done|]. exists jxs. simpl. by rewrite Hix.
    + right; right. exists x. split_and!; try done. intros ->. by apply Hn.
  - intros HO k y Hy. apply Hlv in Hy as [Hy _]. destruct (C4 HO k y Hy) as [?|(x & Hx & Hh)]; [by left|]. right; right. exists x. split_and!; try done. by intros ->.
  - intros HM k y Hy. apply Hlv in Hy as [Hy _]. destruct (C5 HM k y Hy) as [?|(x & Hx & Hh)]; [by left|]. right; right. exists x. split_and!; try done. by intros ->.
  - intros HM k y m Hy. apply Hlv in Hy as [Hy _]. by apply C6.
  - intros k m Hk. simpl. rewrite Hlen. by eapply C7.
Qed.
Lemma cfg_by_mint ts thr j tk i l r : cfg (TConc ts thr) -> thr !! j = Some (XByMint tk i l r) ->
  let ts' := set_table ts (push_at (ta_mint tk) i (ts_by_mint ts)) (ts_by_owner ts) (ts_table ts) in
  cinv E L (TConc ts' (<[j := XByOwner tk i l r]> thr)) -> guar ts ts' -> cfg (TConc ts' (<[j := XByOwner tk i l r]> thr)).
Proof.
  intros HC Hj ts' Hi G. pose proof (cf_inv _ HC) as [Hg Hth]. simpl in Hg, Hth. pose proof (Forall_lookup_1 _ _ _ _ (cf_thr _ HC) Hj) as (Hq1 & Hq2 & Hq3). simpl in Hq1, Hq2, Hq3.
  destruct HC as [C1 C2 C3 C4 C5 C6 C7] eqn:HCe. clear HCe. simpl in *.
  eapply cfg_piece; [exact HC|done|done|done|by apply rows_mono_refl| | | | | |].
  - simpl. split; [done|]. split; [done|by eapply row_of_guar].
  - intros k y Hy. destruct (C3 k y Hy) as [?|(x & Hx & Hh)]; [by left|]. right; right. exists x. split_and!; try done. by intros ->.
  - intros HO k y Hy. destruct (C4 HO k y Hy) as [?|(x & Hx & Hh)]; [by left|]. destruct (decide (owes_o (XByMint tk i l r) k (prefix4 (ta_owner y)))) as [Hw|Hw]; [by right; left|].
    right; right. exists x. split_and!; try done. by intros ->.
  - intros HM k y Hy. destruct (C5 HM k y Hy) as [?|(x & Hx & Hh)]; [left; simpl; by apply elem_push|]. destruct (decide (owes_m (XByMint tk i l r) k (ta_mint y))) as [Hw|Hw].
    + left. simpl in Hw. destruct Hw as [-> <-]. simpl. apply elem_pushed.
    + right; right. exists x. split_and!; try done. by intros ->.
  - intros HM k y m Hy Hk. simpl in Hk. apply push_inv in Hk as [Hk|[-> ->]]; [by eapply C6|]. apply (row_mint ts); [done| |done|by apply Hq2]. destruct Hy. by eapply gi_rows.
  - intros k m Hk. simpl in Hk. apply push_inv in Hk as [Hk|[-> ->]]; [by eapply C7|done].
Qed.
Lemma cfg_by_owner ts thr j tk i l r : cfg (TConc ts thr) -> thr !! j = Some (XByOwner tk i l r) ->
  let ts' := set_table ts (ts_by_mint ts) (push_at (prefix4 (ta_owner tk)) i (ts_by_owner ts)) (ts_table ts) in
  cinv E L (TConc ts' (<[j := XAdds l r]> thr)) -> guar ts ts' -> cfg (TConc ts' (<[j := XAdds l r]> thr)).
Proof.
  intros HC Hj ts' Hi G. destruct HC as [C1 C2 C3 C4 C5 C6 C7] eqn:HCe. clear HCe. simpl in *.
  eapply cfg_piece; [exact HC|done|done|done|by apply rows_mono_refl|done| | | | |].
  - intros k y Hy. destruct (C3 k y Hy) as [?|(x & Hx & Hh)]; [by left|]. right; right. exists x. split_and!; try done. by intros ->.
  - intros HO k y Hy. destruct (C4 HO k y Hy) as [?|(x & Hx & Hh)]; [left; simpl; by apply elem_push|]. destruct (decide (owes_o (XByOwner tk i l r) k (prefix4 (ta_owner y)))) as [Hw|Hw].
    + left. simpl in Hw. destruct Hw as [-> <-]. simpl. apply elem_pushed.
    + right; right. exists x. split_and!; try done. by intros ->.
  - intros HM k y Hy. destruct (C5 HM k y Hy) as [?|(x & Hx & Hh)]; [by left|]. right; right. exists x. split_and!; try done. by intros ->.
  - done.
  - done.
Qed.

(** The pieces that change the table or the indices. *)
Definition moves (x : tthr) : bool := match x with XAdds (TPToken _ :: _) _ | XByMint _ _ _ _ | XByOwner _ _ _ _ | XDelKey _ _ _ | XDelRow _ _ _ _ => true | _ => false end.
Definition owing (x : tthr) : bool := match x with XByMint _ _ _ _ | XByOwner _ _ _ _ | XDelRow _ _ _ _ => true | _ => false end.
#[local] Opaque conf_walk.
Lemma plain_piece ts t ts' t' : tho E L ts t -> moves t = false -> tpiece E X ts t = Some (Done (ts', t')) ->
  ts_table ts' = ts_table ts /\ ts_by_owner ts' = ts_by_owner ts /\ ts_by_mint ts' = ts_by_mint ts /\ owing t' = false.
Proof.
  intros Ht Hm Hp. destruct t; simpl in Ht; try done; simpl in Hm; try done; simpl in Hp; unfold mbind, res_bind, add_finalized, set_pend, set_ix, set_mints, set_multi, set_conf, set_fin, shown in Hp;
    repeat (case_match; simplify_eq/=; try done); by simplify_eq/=.
Qed.
Lemma cfg_step cs j t ts t' : cfg cs -> tc_thr cs !! j = Some t -> tpiece E X (tc_ts cs) t = Some (Done (ts, t')) -> cfg (TConc ts (<[j := t']> (tc_thr cs))).
Proof.
  intros HC Hj Hp. destruct (cinv_step E X L HW _ _ _ _ _ (cf_inv _ HC) Hj Hp) as [Hi G]. destruct cs as [ts0 thr]. simpl in *.
  pose proof (cf_inv _ HC) as [Hg Hth]. simpl in Hg, Hth. pose proof (Forall_lookup_1 _ _ _ _ Hth Hj) as Ht.
  destruct (moves t) eqn:Hm.
  - destruct t; simpl in Hm; try done; simpl in Hp.
    + destruct l as [|[tk| | |] l]; try done. destruct (tb_save _ tk) as [[[tb i] b]|] eqn:Hs; [|done]. cbn [mbind res_bind] in Hp. injection Hp as <- <-. by eapply cfg_save.
    + injection Hp as <- <-. by apply cfg_by_mint.
    + injection Hp as <- <-. by apply cfg_by_owner.
    + destruct (tb_index (ts_table ts0) !! prefix4 pk) as [ixs|] eqn:Hk; injection Hp as <- <-; [by apply cfg_del_key|].
      by eapply cfg_same; try done; intros ?; simpl; tauto.
    + destruct (tb_del_row _ pk ixs) as [tb|] eqn:Hs; [|done]. cbn [mbind res_bind] in Hp. injection Hp as <- <-. by eapply cfg_del_row.
  - destruct (plain_piece _ _ _ _ Ht Hm Hp) as (H1 & H2 & H3 & H4). eapply cfg_same; try done; [by destruct t'|..]; intros ?; destruct t; simpl; try done; tauto.
Qed.
Lemma cfg_call cs t : cfg cs -> is_call t = true -> calm_call E L cs t -> cfg (TConc (tc_ts cs) (tc_thr cs ++ [t])).
Proof.
  intros [C1 C2 C3 C4 C5 C6 C7] Hc Ho. constructor; simpl; try done.
  - by apply cinv_call.
  - apply Forall_app. split; [done|]. constructor; [|done]. by destruct t.
  - intros i y Hy. destruct (C3 i y Hy) as [?|(x & ? & ?)]; [by left|]. right. exists x. rewrite elem_of_app. auto.
  - intros HO i y Hy. destruct (C4 HO i y Hy) as [?|(x & ? & ?)]; [by left|]. right. exists x. rewrite elem_of_app. auto.
  - intros HM i y Hy. destruct (C5 HM i y Hy) as [?|(x & ? & ?)]; [by left|]. right. exists x. rewrite elem_of_app. auto.
Qed.
Lemma cfg_empty : cfg tc_empty.
Proof.
  assert (forall i t, ~ live ts_empty i t) as H by (by intros i t [[_ ?] _]). constructor; simpl; try (by intros; exfalso; eapply H).
  - apply cinv_empty.
  - constructor.
  - intros i m. rewrite lookup_empty. simpl. intros Hi. by apply elem_of_nil in Hi.
Qed.
Lemma reach_cfg cs cs' : treach E X (calm_call E L) cs cs' -> cfg cs -> cfg cs'.
Proof.
  induction 1 as [cs|cs j t ts t' cs2 Hj Hp _ IH|cs t cs2 Hc Ho _ IH]; intros Hi; [done| |].
  - apply IH. by eapply cfg_step.
  - apply IH. by apply cfg_call.
Qed.

(** ** No writing call under way *)
Context (cs : tconc) (HC : cfg cs) (HQ : quiet cs).
Let ts := tc_ts cs.
Lemma quiet_at i t : live ts i t -> at_pos (ts_table ts) (ta_pubkey t) i t.
Proof.
  intros Hl. destruct (cf_key _ HC _ _ Hl) as [?|(x & Hx & Hh)]; [done|]. exfalso. eapply Forall_forall in HQ; [|done]. by destruct x.
Qed.
Lemma quiet_owner i t : keeps_owner E L -> live ts i t -> i ∈ default [] (ts_by_owner ts !! prefix4 (ta_owner t)).
Proof.
  intros HO Hl. destruct (cf_own _ HC HO _ _ Hl) as [?|(x & Hx & Hh)]; [done|]. exfalso. eapply Forall_forall in HQ; [|done]. by destruct x.
Qed.
Lemma quiet_mint i t : keeps_mint E L -> live ts i t -> i ∈ default [] (ts_by_mint ts !! ta_mint t).
Proof.
  intros HM Hl. destruct (cf_mint _ HC HM _ _ Hl) as [?|(x & Hx & Hh)]; [done|]. exfalso. eapply Forall_forall in HQ; [|done]. by destruct x.
Qed.
Lemma elem_default (o : option (list nat)) i : i ∈ default [] o -> exists ixs, o = Some ixs /\ i ∈ ixs.
Proof. destruct o as [ixs|]; simpl; [eauto|]. intros H. by apply elem_of_nil in H. Qed.
Lemma quiet_qinv : keeps_owner E L -> exists M, qinv M ts.
Proof.
  intros HO. destruct (cf_inv _ HC) as [Hg _]. pose proof (gi_t _ _ _ Hg) as T.
  exists (omap (M := list) (fun v => match from_bytes v with Done t => Some (TPToken t) | Panic => None end) (tb_accounts (ts_table ts))). constructor.
  - intros i t Hs Hd. by apply quiet_at.
  - intros pk i t Ha. apply elem_of_list_omap. exists (to_bytes t). destruct Ha as [[Hgd Hs] _]. split; [by eapply elem_of_list_lookup_2|]. by rewrite (good_from _ Hgd).
  - intros pk i t Ha. apply elem_default, quiet_owner; [done|]. split; [apply Ha|]. by eapply (ti_live _ T).
Qed.
Lemma live_key i t : live ts i t -> token_key E L (ta_pubkey t).
Proof. intros [H1 H2]. destruct (cf_inv _ HC) as [Hg _]. destruct (row_token _ _ (gi_rows _ _ _ Hg _ _ H1 H2)) as (o & r & Ho & Hop & _). by exists o, r. Qed.
Lemma mint_bound i m : ts_mints ts !! i = Some m -> ma_pubkey m < 2 ^ 256.
Proof.
  intros Hm. destruct (cf_inv _ HC) as [Hg _]. destruct (gi_mi _ _ _ Hg _ _ Hm) as (o & Ho & Hcf). apply comes_mint in Hcf as (a & v & Ha & <- & _).
  destruct HW as [Hok _]. apply (proj1 (Forall_forall _ _)) with (x := o) in Hok; [|done]. destruct o; simpl in *; try done; by injection Ha as ->.
Qed.
(** A finalized read of the key of a token account reads the table. *)
Lemma key_read pk b : token_key E L pk ->
  ts_get ts pk Finalized = Done (ROk (Some b)) <-> exists i t, at_pos (ts_table ts) pk i t /\ token_to_acct t (ts_fin ts) 0 (ts_mints ts) = Done (Some b).
Proof.
  intros (o & r & Ho & Hop). destruct (cf_inv _ HC) as [Hg _]. fold ts in Hg. pose proof (gi_t _ _ _ Hg) as T. unfold ts_get, get_fin.
  assert (ts_multi ts !! pk = None) as ->.
  { destruct (ts_multi ts !! pk) as [m|] eqn:Hm; [|done]. destruct (gi_mu _ _ _ Hg _ _ Hm) as (o' & Ho' & Hcf). apply comes_multi in Hcf. by destruct (HT _ _ _ Ho Hop o' Ho') as (_ & _ & ? & _). }
  assert (ts_mint_ix ts !! pk = None) as ->.
  { destruct (ts_mint_ix ts !! pk) as [i|] eqn:Hm; [|done]. destruct (fi_from _ _ _ (ki_fin _ _ _ (gi_k _ _ _ Hg)) _ _ Hm) as (o' & Ho' & Hx).
    destruct (HT _ _ _ Ho Hop o' Ho') as (? & ? & _). by destruct Hx. }
  destruct (rep_exists _ (ti_table _ T)) as [m0 Hrep]. rewrite (tb_get_spec _ _ pk (ti_table _ T) Hrep). cbn [mbind res_bind]. split.
  - destruct (m0 !! pk) as [t|] eqn:Ht; [|done]. apply Hrep in Ht as [i Ha]. rewrite (ti_live _ T _ _ _ Ha). destruct (token_to_acct _ _ _ _) as [x|] eqn:Hx; [|done]. cbn [mbind res_bind]. intros [= ->]. eauto.
  - intros (i & t & Ha & Ht). assert (m0 !! pk = Some t) as -> by (apply Hrep; eauto). rewrite (ti_live _ T _ _ _ Ha). by rewrite Ht.
Qed.
End index.
