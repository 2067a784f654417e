(** Program queries of the token program store: indices and answers. *)
From Verif Require Import Base SMap DataModel BincodeModel BincodeProofs FilterModel StoreModel TokenModel TokenProofs TokenProps SplModel SplProofs TokenUtilsModel
  TokenUtilsProofs TokenPendModel TokenPendSpec TokenPendProofs TokenPendProps TokenUtilsProps TokenStoreModel TokenStoreSpec TokenStoreProofs TokenStoreViews.
#[local] Arguments le : simpl never.
#[local] Arguments unle : simpl never.
#[local] Opaque to_bytes from_bytes peek_pubkey.

(** ** Reading positions and converting *)
Lemma from_all_spec tb ixs : tb_ok tb -> NoDup ixs -> exists js l, from_all (tb_accounts tb) ixs = Done l /\ NoDup js /\ (forall j, j ∈ js -> j ∈ ixs) /\ Forall2 (stored tb) js l /\
  forall i t, i ∈ ixs -> stored tb i t -> i ∈ js.
Proof.
  intros Hok. induction ixs as [|i ixs IH]; intros Hnd.
  - exists [], []. split; [done|]. split; [constructor|]. split; [done|]. split; [constructor|]. intros i t Hi. by apply elem_of_nil in Hi.
  - apply NoDup_cons in Hnd as [Hni Hnd]. destruct IH as (js & l & He & Hs & Hsub & Hf & Hin); [done|]. simpl. destruct (tb_accounts tb !! i) as [v|] eqn:Hv.
    + destruct (to_all _ Hok _ _ Hv) as (t & Hg & ->). rewrite (good_from _ Hg). cbn [mbind res_bind]. rewrite He. cbn [mbind res_bind].
      exists (i :: js), (t :: l). split; [done|]. split; [apply NoDup_cons; split; [|done]; intros Hj; by apply Hni, Hsub|].
      split; [intros j [->|Hj]%elem_of_cons; [left|right; by apply Hsub]|]. split; [constructor; [by split|done]|].
      intros j t' Hj Hst. apply elem_of_cons in Hj as [->|Hj]; [left|right]. by eapply Hin.
    + exists js, l. split; [done|]. split; [done|]. split; [intros j Hj; right; by apply Hsub|]. split; [done|].
      intros j t' Hj Hst. apply elem_of_cons in Hj as [->|Hj]; [|by eapply Hin].
      destruct Hst. congruence.
Qed.
Lemma tokens_to_accts_elem ts l r : tokens_to_accts ts l = Done r ->
  forall b, b ∈ r <-> exists t, t ∈ l /\ token_to_acct t (ts_fin ts) 0 (ts_mints ts) = Done (Some b).
Proof.
  revert r. induction l as [|t l IH]; intros r H b; simpl in H.
  - injection H as <-. split; [intros Hb; by apply elem_of_nil in Hb|]. intros (t & Ht & _). by apply elem_of_nil in Ht.
  - destruct (token_to_acct t (ts_fin ts) 0 (ts_mints ts)) as [o|] eqn:Ht; [|done]. cbn [mbind res_bind] in H. destruct (tokens_to_accts ts l) as [r0|] eqn:Hr; [|done].
    cbn [mbind res_bind] in H. injection H as <-. specialize (IH _ eq_refl b). destruct o as [x|].
    + rewrite elem_of_cons, IH. split.
      * intros [->|(t' & ? & ?)]; [exists t; split; [left|done]|exists t'; split; [by right|done]].
      * intros (t' & [->|?]%elem_of_cons & ?); [left; congruence|right; eauto].
    + rewrite IH. split; intros (t' & Hin & ?); exists t'; (split; [|done]); [by right|]. apply elem_of_cons in Hin as [->|?]; [congruence|done].
Qed.
Lemma token_to_acct_some t slot wv mints b : token_to_acct t slot wv mints = Done (Some b) -> ta_deleted t = false /\ d_pubkey b = ta_pubkey t /\
  exists m, mints !! ta_mint t = Some m /\ d_owner b = program_pk (ta_program t) /\
    d_data b = DRaw (pack_account (SplAccount (ma_pubkey m) (ta_owner t) (ta_amount t) (fst <$> ta_delegate t) (ta_state t)
                  (ta_native t) (match ta_delegate t with Some (_, n) => n | None => 0 end) (ta_close t)) ++
                  match ta_program t with TokenP => [] | Token2022P => default [] (ta_extra t) end).
Proof.
  unfold token_to_acct. destruct (ta_deleted t); [done|]. destruct (mints !! ta_mint t) as [m|]; [|done]. cbn [unwrap mbind res_bind]. intros H.
  split; [done|]. destruct (ta_program t); injection H as <-; (split; [done|]); exists m; simpl; rewrite ?app_nil_r; done.
Qed.
Lemma token_to_acct_none t slot wv mints : token_to_acct t slot wv mints = Done None -> ta_deleted t = true.
Proof. unfold token_to_acct. destruct (ta_deleted t); [done|]. by destruct (mints !! ta_mint t). Qed.
Lemma tokens_to_accts_keys ts l r : tokens_to_accts ts l = Done r -> d_pubkey <$> r = ta_pubkey <$> filter (fun t => ta_deleted t = false) l.
Proof.
  revert r. induction l as [|t l IH]; intros r H; simpl in H; [by injection H as <-|].
  destruct (token_to_acct t (ts_fin ts) 0 (ts_mints ts)) as [o|] eqn:Ht; [|done]. cbn [mbind res_bind] in H. destruct (tokens_to_accts ts l) as [r0|] eqn:Hr; [|done].
  cbn [mbind res_bind] in H. injection H as <-. destruct o as [x|].
  - apply token_to_acct_some in Ht as (Hd & Hp & _). rewrite filter_cons_True by done. rewrite !fmap_cons, Hp. f_equal. by apply IH.
  - apply token_to_acct_none in Ht. rewrite filter_cons_False by congruence. by apply IH.
Qed.

Lemma NoDup_keys_filter (P Q : token_account -> Prop) `{!forall t, Decision (P t), !forall t, Decision (Q t)} l :
  NoDup (ta_pubkey <$> filter Q l) -> NoDup (ta_pubkey <$> filter Q (filter P l)).
Proof.
  induction l as [|t l IH]; intros HN; [done|]. rewrite (filter_cons P). destruct (decide (P t)).
  - rewrite filter_cons in HN |- *. destruct (decide (Q t)); [|by apply IH]. rewrite fmap_cons in HN |- *. apply NoDup_cons in HN as [Hn HN].
    apply NoDup_cons. split; [|by apply IH]. intros Hin. apply Hn. apply elem_of_list_fmap in Hin as (t' & -> & Ht').
    apply elem_of_list_fmap. exists t'. split; [done|]. apply elem_of_list_filter in Ht' as [? Ht']; apply elem_of_list_filter in Ht' as [? ?]. by apply elem_of_list_filter.
  - apply IH. rewrite filter_cons in HN. destruct (decide (Q t)); [|done]. rewrite fmap_cons in HN. by apply NoDup_cons in HN as [_ HN].
Qed.

(** ** Indices *)
(** No account shares its position with a dead one, live positions are found through the owner. *)
Record qinv (Lall : list tpa) (ts : tstore) : Prop := QInv {
  qi_live : forall i t, stored (ts_table ts) i t -> ta_deleted t = false -> at_pos (ts_table ts) (ta_pubkey t) i t;
  qi_log : forall pk i t, at_pos (ts_table ts) pk i t -> TPToken t ∈ Lall;
  qi_owner : forall pk i t, at_pos (ts_table ts) pk i t -> exists ixs, ts_by_owner ts !! prefix4 (ta_owner t) = Some ixs /\ i ∈ ixs;
}.
Definition owner_stable (L : list tpa) : Prop :=
  forall t t', TPToken t ∈ L -> TPToken t' ∈ L -> ta_pubkey t = ta_pubkey t' -> ta_owner t = ta_owner t'.
Definition mint_stable (L : list tpa) : Prop :=
  forall t t', TPToken t ∈ L -> TPToken t' ∈ L -> ta_pubkey t = ta_pubkey t' -> ta_mint t = ta_mint t'.
Definition isolated_log (L : list tpa) : Prop :=
  forall q t, TPDeleted q ∈ L -> TPToken t ∈ L -> same_first4 q (ta_pubkey t) -> q = ta_pubkey t.
Lemma push_at_new k i m : exists ixs, push_at k i m !! k = Some ixs /\ i ∈ ixs.
Proof. unfold push_at. rewrite lookup_insert. eexists. split; [done|]. apply elem_of_app. right. by apply elem_of_list_singleton. Qed.
Lemma push_at_old k i m k' ixs j : m !! k' = Some ixs -> j ∈ ixs -> exists ixs', push_at k i m !! k' = Some ixs' /\ j ∈ ixs'.
Proof.
  intros Hk Hj. unfold push_at. destruct (decide (k = k')) as [->|Hne].
  - rewrite lookup_insert, Hk. eexists. split; [done|]. simpl. apply elem_of_app. by left.
  - rewrite lookup_insert_ne by done. eauto.
Qed.
Lemma push_at_inv k i m k' ixs j : push_at k i m !! k' = Some ixs -> j ∈ ixs -> (k' = k /\ j = i) \/ exists ixs0, m !! k' = Some ixs0 /\ j ∈ ixs0.
Proof.
  unfold push_at. intros H Hj. apply lookup_insert_Some in H as [[<- <-]|[Hne H]]; [|right; eauto].
  apply elem_of_app in Hj as [Hj|Hj%elem_of_list_singleton]; [right|by left]. destruct (m !! k) as [l|]; [eauto|by apply elem_of_nil in Hj].
Qed.
Lemma qinv_empty L : qinv L ts_empty.
Proof.
  constructor; simpl.
  - intros i t [_ H]. simpl in H. by rewrite lookup_nil in H.
  - intros pk i t (_ & _ & ixs & H & _). simpl in H. by rewrite lookup_empty in H.
  - intros pk i t (_ & _ & ixs & H & _). simpl in H. by rewrite lookup_empty in H.
Qed.
Lemma save_live tb t tb' i b : tb_ok tb -> good t -> tb_save tb t = Done (tb', i, b) ->
  (forall i t, stored tb i t -> ta_deleted t = false -> at_pos tb (ta_pubkey t) i t) ->
  forall j t', stored tb' j t' -> ta_deleted t' = false -> at_pos tb' (ta_pubkey t') j t'.
Proof.
  intros Hok Hg Hs Hl j t' Hst Hd. destruct (tb_save_spec _ t Hok Hg) as (tb1 & i1 & b1 & Hs1 & Hok' & Hat & Hoth & Hb0 & Hb1 & Hsame & _).
  rewrite Hs in Hs1. injection Hs1 as <- <- <-. destruct (decide (j = i)) as [->|Hne].
  - pose proof Hat as (Hst' & _). rewrite (stored_fun _ _ _ _ Hst Hst'). done.
  - assert (stored tb j t') as Hst0 by (destruct Hst; split; [done|]; by rewrite <- Hsame).
    pose proof (Hl _ _ Hst0 Hd) as Ha. destruct (decide (ta_pubkey t' = ta_pubkey t)) as [He|Hn]; [|by apply Hoth].
    exfalso. rewrite He in Ha. destruct b.
    + destruct Hb1 as [_ Hno]; [done|]. by apply (Hno j t').
    + destruct Hb0 as [t0 Ha0]; [done|]. by destruct (at_pos_fun _ _ _ _ _ _ Hok Ha Ha0).
Qed.
Lemma delete_live tb q tb' : tb_ok tb -> tb_delete tb q = Done tb' ->
  (forall i t, stored tb i t -> ta_deleted t = false -> at_pos tb (ta_pubkey t) i t) ->
  (forall i t, stored tb i t -> ta_deleted t = false -> same_first4 q (ta_pubkey t) -> q = ta_pubkey t) ->
  forall j t', stored tb' j t' -> ta_deleted t' = false -> at_pos tb' (ta_pubkey t') j t'.
Proof.
  intros Hok Hd Hl Hiso j t' Hst Hdl. destruct (tb_delete_spec tb q Hok) as (tb1 & H1 & _ & Hat & _ & _ & Hgone).
  rewrite Hd in H1. injection H1 as <-. destruct (stored_deleted_pos _ _ _ _ Hok Hd t' Hst) as [Hst0| ->]; [|done].
  pose proof (Hl _ _ Hst0 Hdl) as Ha. apply Hat. split; [|done]. intros He. assert (q = ta_pubkey t') as ->.
  { apply (Hiso j); [done..|]. apply first4_prefix. done. }
  pose proof (Hgone _ _ Ha) as Hg. destruct Hst as [Hgood Hst]. rewrite Hg in Hst. apply (inj Some) in Hst. apply to_bytes_inj in Hst; [|apply good_deleted|done]. by subst t'.
Qed.
Lemma add_finalized_qinv L ts a ts' : owner_stable L -> isolated_log L -> a ∈ L -> tinv ts -> ts_ctr ts <= 2 ^ 32 -> tpa_ok (ts_ctr ts) a ->
  qinv L ts -> add_finalized ts a = Done ts' -> qinv L ts'.
Proof.
  intros Hos Hiso HL Hi Hc Hok [Q1 Q2 Q3] H. destruct a as [t|m|m q|q]; simpl in H.
  - pose proof (tpa_ok_good _ _ Hok Hc) as Hg. unfold add_token in H.
    destruct (tb_save_spec _ t (ti_table _ Hi) Hg) as (tb & i & b & Hs & Htb & Hat & Hoth & Hb0 & Hb1 & _). rewrite Hs in H.
    cbn [mbind res_bind] in H. injection H as <-.
    assert (forall pk j t', at_pos tb pk j t' -> (pk = ta_pubkey t /\ j = i /\ t' = t) \/ (pk <> ta_pubkey t /\ at_pos (ts_table ts) pk j t')) as Hcase.
    { intros pk j t' Ha. destruct (decide (pk = ta_pubkey t)) as [->|Hne]; [left|right; split; [done|by apply Hoth]].
      destruct (at_pos_fun _ _ _ _ _ _ Htb Ha Hat) as [-> ->]. done. }
    assert (forall pk j t', at_pos tb pk j t' -> TPToken t' ∈ L) as H2.
    { intros pk j t' Ha. destruct (Hcase _ _ _ Ha) as [(-> & -> & ->)|[_ Ha']]; [done|by eapply Q2]. }
    pose proof (save_live _ _ _ _ _ (ti_table _ Hi) Hg Hs Q1) as H1. destruct b; constructor; simpl; try done.
    + intros pk j t' Ha. destruct (Hcase _ _ _ Ha) as [(-> & -> & ->)|[_ Ha']]; [apply push_at_new|].
      destruct (Q3 _ _ _ Ha') as (ixs & ? & ?). by eapply push_at_old.
    + intros pk j t' Ha. destruct (Hcase _ _ _ Ha) as [(-> & -> & ->)|[_ Ha']]; [|by eapply Q3].
      destruct Hb0 as [t0 Ha0]; [done|]. destruct (Q3 _ _ _ Ha0) as (ixs & ? & ?). exists ixs. split; [|done].
      rewrite (Hos t t0); [done|done|by eapply Q2|]. by destruct Ha0 as (_ & -> & _).
  - destruct (ts_mint_ix ts !! ma_pubkey m); injection H as <-; by constructor.
  - injection H as <-. by constructor.
  - destruct (ts_mint_ix ts !! q) as [i|] eqn:Hq; [injection H as <-; by constructor|].
    destruct (tb_delete _ _) as [tb|] eqn:Hd; [|done]. cbn [mbind res_bind] in H. injection H as <-.
    destruct (tb_delete_spec _ q (ti_table _ Hi)) as (tb1 & H1 & _ & Hat & _). rewrite Hd in H1. injection H1 as <-. constructor; simpl.
    + apply (delete_live _ _ _ (ti_table _ Hi) Hd Q1). intros j t Hst Hdl Hf. apply (Hiso q t); [done|by eapply Q2, Q1|done].
    + intros pk j t Ha. apply Hat in Ha as [_ Ha]. by eapply Q2.
    + intros pk j t Ha. apply Hat in Ha as [_ Ha]. by eapply Q3.
Qed.
Lemma run_qinv E X l ts : ts_run E X ts_empty l = Done ts -> ops_ok l -> ts_ctr ts <= 2 ^ 32 ->
  owner_stable (ts_log E X ts_empty l).*1 -> isolated_log (ts_log E X ts_empty l).*1 -> qinv (ts_log E X ts_empty l).*1 ts.
Proof.
  intros H Hok Hc Hos Hiso. set (LL := (ts_log E X ts_empty l).*1) in *.
  apply (run_ind E X (fun ts _ => qinv LL ts) (fun _ => True) (fun x => x ∈ LL)) with (l := l) (ts := ts_empty); try done.
  - intros ts0 o ts1 L0 _ _ _ [Q1 Q2 Q3] Hs. constructor; rewrite ?(sf_table _ _ _ _ Hs), ?(sf_by_owner _ _ _ _ Hs); done.
  - intros ts0 a ts1 L0 Hi Hc0 Ha HL HQ H1. by eapply add_finalized_qinv.
  - by apply Forall_true.
  - by apply Forall_forall.
  - apply tinv_empty.
  - apply qinv_empty.
Qed.

(** The owner query. *)
Lemma gpa_owner_spec E L ts p cs o mo r : tinv ts -> ts_gpa E ts p (Some cs) Finalized = Done (ROk r) -> owner_mint_filter p cs = (Some o, mo) ->
  exists mi, match mo with None => mi = None | Some m => exists i, ts_mint_ix ts !! m = Some i /\ mi = Some i end /\
   (forall b, b ∈ r -> exists i t, stored (ts_table ts) i t /\ keep_token o mi t = true /\ token_to_acct t (ts_fin ts) 0 (ts_mints ts) = Done (Some b)) /\
   (qinv L ts -> (forall pk i t b, at_pos (ts_table ts) pk i t -> keep_token o mi t = true -> token_to_acct t (ts_fin ts) 0 (ts_mints ts) = Done (Some b) -> b ∈ r) /\
     NoDup (d_pubkey <$> r)).
Proof.
  intros Hi H Hf. unfold ts_gpa in H. destruct (_ && _); [done|]. unfold gpa_fin in H. rewrite Hf in H.
  assert (exists mi, match mo with None => mi = None | Some m => exists i, ts_mint_ix ts !! m = Some i /\ mi = Some i end /\
    match mo with None => Done None | Some m => i ← unwrap (ts_mint_ix ts !! m); Done (Some i) end = Done mi) as (mi & Hmi & He).
  { destruct mo as [m|]; [|by exists None]. destruct (ts_mint_ix ts !! m) as [i|]; [|done]. exists (Some i). split; [|done]. by exists i. }
  rewrite He in H. cbn [mbind res_bind] in H. exists mi. split; [done|].
  destruct (ts_by_owner ts !! prefix4 o) as [ixs|] eqn:Hix.
  2:{ injection H as <-. split; [intros b Hb; by apply elem_of_nil in Hb|]. intros [Q1 Q2 Q3]. split; [|constructor].
      intros pk i t b Ha Hk Ht. exfalso. destruct (Q3 _ _ _ Ha) as (ixs & Hk' & _).
      assert (ta_owner t = o) as Ho by (unfold keep_token in Hk; destruct mi; [apply andb_true_iff in Hk as [_ Hk]|]; by apply N.eqb_eq). rewrite Ho in Hk'. congruence. }
  unfold tb_by_index in H. destruct (from_all_spec (ts_table ts) (elements (list_to_set ixs : gset nat)) (ti_table _ Hi) (NoDup_elements _)) as (js & l & Hl & Hnd & Hsub & Hf2 & Hall).
  rewrite Hl in H. cbn [mbind res_bind] in H. destruct (tokens_to_accts ts _) as [r0|] eqn:Hr; [|done]. cbn [mbind res_bind] in H. injection H as <-.
  pose proof (tokens_to_accts_elem _ _ _ Hr) as Hel. split.
  - intros b Hb. apply Hel in Hb as (t & Ht & Hb). apply elem_of_list_filter in Ht as [Hk Ht].
    apply elem_of_list_lookup in Ht as [n Hn]. destruct (Forall2_lookup_r _ _ _ _ _ Hf2 Hn) as (i & _ & Hst). exists i, t. done.
  - intros [Q1 Q2 Q3]. split.
    + intros pk i t b Ha Hk Ht. apply Hel. exists t. split; [|done]. apply elem_of_list_filter. split; [done|].
      assert (ta_owner t = o) as Ho by (unfold keep_token in Hk; destruct mi; [apply andb_true_iff in Hk as [_ Hk]|]; by apply N.eqb_eq).
      destruct (Q3 _ _ _ Ha) as (ixs' & Hk' & Hin). rewrite Ho, Hix in Hk'. injection Hk' as <-. pose proof Ha as (Hst & _).
      assert (i ∈ js) as Hj. { apply (Hall i t); [|done]. apply elem_of_elements, elem_of_list_to_set. done. }
      apply elem_of_list_lookup in Hj as [n Hn]. destruct (Forall2_lookup_l _ _ _ _ _ Hf2 Hn) as (t' & Hn' & Hst').
      rewrite (stored_fun _ _ _ _ Hst Hst'). by eapply elem_of_list_lookup_2.
    + rewrite (tokens_to_accts_keys _ _ _ Hr). apply NoDup_keys_filter.
      clear Hsub Hall Hl Hr Hel. induction Hf2 as [|j t js' l' Hst Hf2 IH]; [constructor|]. apply NoDup_cons in Hnd as [Hnj Hnd].
      destruct (ta_deleted t) eqn:Hd; [rewrite filter_cons_False by congruence; by apply IH|]. rewrite filter_cons_True by done. rewrite fmap_cons.
      apply NoDup_cons. split; [|by apply IH]. intros Hin. apply elem_of_list_fmap in Hin as (t' & He' & Hin). apply elem_of_list_filter in Hin as [Hd' Hin].
      apply elem_of_list_lookup in Hin as [n Hn]. destruct (Forall2_lookup_r _ _ _ _ _ Hf2 Hn) as (j' & Hj' & Hst').
      pose proof (Q1 _ _ Hst Hd) as A1. pose proof (Q1 _ _ Hst' Hd') as A2. rewrite He' in A1. destruct (at_pos_fun _ _ _ _ _ _ (ti_table _ Hi) A1 A2) as [-> _].
      apply Hnj. by eapply elem_of_list_lookup_2.
Qed.

Lemma index_answer ts (S : gset nat) l r : tinv ts -> (forall i t, stored (ts_table ts) i t -> ta_deleted t = false -> at_pos (ts_table ts) (ta_pubkey t) i t) ->
  tb_by_index (ts_table ts) S = Done l -> tokens_to_accts ts l = Done r ->
  NoDup (d_pubkey <$> r) /\ forall b, b ∈ r <-> exists i t, i ∈ S /\ stored (ts_table ts) i t /\ token_to_acct t (ts_fin ts) 0 (ts_mints ts) = Done (Some b).
Proof.
  intros Hi Q1 Hl Hr. unfold tb_by_index in Hl. destruct (from_all_spec (ts_table ts) (elements S) (ti_table _ Hi) (NoDup_elements _)) as (js & l' & Hl' & Hnd & Hsub & Hf2 & Hall).
  rewrite Hl in Hl'. injection Hl' as <-. split.
  - rewrite (tokens_to_accts_keys _ _ _ Hr). clear Hsub Hall Hl Hr. induction Hf2 as [|j t js' l' Hst Hf2 IH]; [constructor|]. apply NoDup_cons in Hnd as [Hnj Hnd].
    destruct (ta_deleted t) eqn:Hd; [rewrite filter_cons_False by congruence; by apply IH|]. rewrite filter_cons_True by done. rewrite fmap_cons.
    apply NoDup_cons. split; [|by apply IH]. intros Hin. apply elem_of_list_fmap in Hin as (t' & He' & Hin). apply elem_of_list_filter in Hin as [Hd' Hin].
    apply elem_of_list_lookup in Hin as [n Hn]. destruct (Forall2_lookup_r _ _ _ _ _ Hf2 Hn) as (j' & Hj' & Hst').
    pose proof (Q1 _ _ Hst Hd) as A1. pose proof (Q1 _ _ Hst' Hd') as A2. rewrite He' in A1. destruct (at_pos_fun _ _ _ _ _ _ (ti_table _ Hi) A1 A2) as [-> _].
    apply Hnj. by eapply elem_of_list_lookup_2.
  - intros b. rewrite (tokens_to_accts_elem _ _ _ Hr b). split.
    + intros (t & Ht & Hb). apply elem_of_list_lookup in Ht as [n Hn]. destruct (Forall2_lookup_r _ _ _ _ _ Hf2 Hn) as (i & Hin & Hst). exists i, t. split; [|done].
      apply elem_of_elements, Hsub. by eapply elem_of_list_lookup_2.
    + intros (i & t & HS & Hst & Hb). exists t. split; [|done]. assert (i ∈ js) as Hj by (apply (Hall i t); [by apply elem_of_elements|done]).
      apply elem_of_list_lookup in Hj as [n Hn]. destruct (Forall2_lookup_l _ _ _ _ _ Hf2 Hn) as (t' & Hn' & Hst').
      rewrite (stored_fun _ _ _ _ Hst Hst'). by eapply elem_of_list_lookup_2.
Qed.

(** ** From histories to the log *)
Lemma comes_token E o t : comes_from E o (TPToken t) -> exists r, op_token E o (ta_pubkey t) r /\ ta_owner t = sa_owner r.
Proof.
  intros (a & ix & ctr & ix' & ctr' & Ho & Hp & Hix & Ht).
  apply account_type_inv in Ht as [(? & _)|[Hl (p & v & Hw & Hv & [(m' & x & Hu & ? & _)|[(m' & Hu & ? & _)|(s & i & Hu & Hmi & [= ->])]])]]; try done.
  exists s. split; [|done]. by exists a, v.
Qed.
Section log.
Context (E : ext) (X : lz4x) (l : list tsop) (ts : tstore).
Context (Hrun : ts_run E X ts_empty l = Done ts) (Hok : ops_ok l) (Hc : ts_ctr ts <= 2 ^ 32).
Let L := (ts_log E X ts_empty l).*1.
Lemma log_owner_stable : keeps_owner E l -> owner_stable L.
Proof.
  intros Hk t t' Ht Ht' He. destruct (log_origin _ _ _ _ Hrun Hok Hc _ Ht) as (o & Ho & Hcf). destruct (log_origin _ _ _ _ Hrun Hok Hc _ Ht') as (o' & Ho' & Hcf').
  apply comes_token in Hcf as (r & Hr & ->). apply comes_token in Hcf' as (r' & Hr' & ->). rewrite <- He in Hr'. exact (Hk _ _ _ _ _ Ho Ho' Hr Hr').
Qed.
Lemma log_isolated : tidy E l -> isolated_log L.
Proof.
  intros Hk q t Hq Ht Hs. destruct (log_origin _ _ _ _ Hrun Hok Hc _ Ht) as (o & Ho & Hcf). destruct (log_origin _ _ _ _ Hrun Hok Hc _ Hq) as (o' & Ho' & Hcf').
  apply comes_token in Hcf as (r & Hr & _). apply comes_deleted in Hcf' as (a & Ha & <-). destruct (Hk _ _ _ Ho Hr o' Ho') as (_ & _ & _ & Hn).
  destruct (decide (d_pubkey a = ta_pubkey t)); [done|]. exfalso. apply Hn. by exists a.
Qed.
Lemma log_tidy t : tidy E l -> TPToken t ∈ L -> not_mint E l (ta_pubkey t) /\ no_collision l (ta_pubkey t) /\ multi_state L (ta_pubkey t) = None.
Proof.
  intros Hk Ht. destruct (log_origin _ _ _ _ Hrun Hok Hc _ Ht) as (o & Ho & Hcf). apply comes_token in Hcf as (r & Hr & _). split; [|split].
  - intros o' Ho'. destruct (Hk _ _ _ Ho Hr o' Ho') as (? & ? & _). done.
  - intros o' Ho'. by destruct (Hk _ _ _ Ho Hr o' Ho') as (_ & _ & _ & ?).
  - apply multi_state_none. intros m Hm. destruct (log_origin _ _ _ _ Hrun Hok Hc _ Hm) as (o' & Ho' & Hcf'). apply comes_multi in Hcf'.
    by destruct (Hk _ _ _ Ho Hr o' Ho') as (_ & _ & ? & _).
Qed.
Lemma mint_key_ok i m : ts_mints ts !! i = Some m -> ma_pubkey m < 2 ^ 256.
Proof.
  intros Hm. pose proof (run_inv _ _ _ _ _ Hrun Hok tinv_empty Hc) as Hi. destruct (run_agrees _ _ _ _ Hrun Hok Hc) as [_ Hb].
  assert (mint_state L (ma_pubkey m) = Some m) as Hs by (apply Hb; exists i; split; [by apply (ti_mints _ Hi)|done]).
  assert (TPMint m ∈ L) as Hin.
  { clear -Hs. induction L as [|a L0 IH] using rev_ind; [done|]. rewrite mint_state_snoc in Hs. apply elem_of_app.
    destruct a as [t|m'|m' q|q]; simpl in Hs; [left; by apply IH| |left; by apply IH|].
    - destruct (_ =? _); [injection Hs as ->; right; by apply elem_of_list_singleton|left; by apply IH].
    - destruct (_ =? _); [done|left; by apply IH]. }
  destruct (log_origin _ _ _ _ Hrun Hok Hc _ Hin) as (o & Ho & Hcf). apply comes_mint in Hcf as (a & v & Ha & <- & _).
  apply (proj1 (Forall_forall _ _)) with (x := o) in Hok; [|done]. destruct o; simpl in *; try done; by injection Ha as ->.
Qed.
End log.

(** ** Bytes of the answers *)
Lemma token_bytes t slot wv mints b : ta_extra t = None -> token_to_acct t slot wv mints = Done (Some b) ->
  exists m v, mints !! ta_mint t = Some m /\ d_data b = DRaw v /\ length v = 165%nat /\ take 32 v = le 32 (ma_pubkey m) /\ take 32 (drop 32 v) = le 32 (ta_owner t).
Proof.
  intros Hx H. apply token_to_acct_some in H as (_ & _ & m & Hm & _ & Hd). rewrite Hx in Hd.
  eexists m, _. split; [done|]. split; [exact Hd|]. match goal with |- context [_ ++ ?x] => replace x with (@nil byte) by (by destruct (ta_program t)) end.
  rewrite app_nil_r. split; [apply pack_account_length|]. unfold pack_account. split.
  - rewrite take_app_le by (rewrite le_length; lia). apply take_ge. rewrite le_length. simpl. lia.
  - rewrite drop_app_alt by (by rewrite le_length). rewrite take_app_le by (rewrite le_length; lia). apply take_ge. rewrite le_length. simpl. lia.
Qed.
Lemma le32_inj a b : a < 2 ^ 256 -> b < 2 ^ 256 -> le 32 a = le 32 b -> a = b.
Proof. apply (le_inj 32). Qed.
Lemma om_bounds p cs o mo : owner_mint_filter p cs = (o, mo) -> (forall x, o = Some x -> x < 2 ^ 256) /\ (forall x, mo = Some x -> x < 2 ^ 256).
Proof.
  unfold owner_mint_filter. intros H.
  assert (forall s, (forall x, om_owner s = Some x -> x < 2 ^ 256) /\ (forall x, om_mint s = Some x -> x < 2 ^ 256) ->
    (forall x, om_owner (foldl (om_step p) s cs) = Some x -> x < 2 ^ 256) /\ (forall x, om_mint (foldl (om_step p) s cs) = Some x -> x < 2 ^ 256)) as Hg.
  { clear H. induction cs as [|c cs IH]; intros s Hs; [done|]. simpl. apply IH. destruct c as [n|[off [b|b|b]]]; simpl; [done| |done|done].
    assert (lenN b = 32 -> unle b < 2 ^ 256) as Hb.
    { intros Hl. replace (2 ^ 256) with (256 ^ lenN b) by (by rewrite Hl). apply unle_lt. }
    split; intros x.
    - destruct (off =? 32); [|apply Hs]. destruct (N.eqb_spec (lenN b) 32); [|apply Hs]. intros [= <-]. by apply Hb.
    - destruct (off =? 0); [|apply Hs]. destruct (N.eqb_spec (lenN b) 32); [|apply Hs]. intros [= <-]. by apply Hb. }
  destruct (_ || _); injection H as <- <-; [|done]. by apply Hg.
Qed.

(** ** The index by mint *)
Record minv (Lall : list tpa) (ts : tstore) : Prop := MInv {
  mi_at : forall pk i t, at_pos (ts_table ts) pk i t -> exists ixs, ts_by_mint ts !! ta_mint t = Some ixs /\ i ∈ ixs;
  mi_only : forall k ixs i t, ts_by_mint ts !! k = Some ixs -> i ∈ ixs -> stored (ts_table ts) i t -> ta_deleted t = false -> ta_mint t = k;
  mi_lt : forall k ixs i, ts_by_mint ts !! k = Some ixs -> i ∈ ixs -> (i < length (tb_accounts (ts_table ts)))%nat;
}.
Lemma minv_empty L : minv L ts_empty.
Proof.
  constructor; simpl.
  - intros pk i t (_ & _ & ixs & H & _). simpl in H. by rewrite lookup_empty in H.
  - intros k ixs i t H. by rewrite lookup_empty in H.
  - intros k ixs i H. by rewrite lookup_empty in H.
Qed.
Lemma add_finalized_minv L ts a ts' : mint_stable L -> isolated_log L -> a ∈ L -> tinv ts -> ts_ctr ts <= 2 ^ 32 -> tpa_ok (ts_ctr ts) a ->
  (forall q, a = TPDeleted q -> ts_mint_ix ts !! q = None) ->
  (forall pk i t, at_pos (ts_table ts) pk i t -> TPToken t ∈ L) -> minv L ts -> add_finalized ts a = Done ts' -> minv L ts'.
Proof.
  intros Hms Hiso HL Hi Hc Hok Hnd Q2 [M1 M2 M3] H. destruct a as [t|m|m q|q]; simpl in H.
  - pose proof (tpa_ok_good _ _ Hok Hc) as Hg. unfold add_token in H.
    destruct (tb_save_spec _ t (ti_table _ Hi) Hg) as (tb & i & b & Hs & Htb & Hat & Hoth & Hb0 & Hb1 & Hsame & Hlen). rewrite Hs in H.
    cbn [mbind res_bind] in H. injection H as <-.
    assert (forall pk j t', at_pos tb pk j t' -> (pk = ta_pubkey t /\ j = i /\ t' = t) \/ (pk <> ta_pubkey t /\ at_pos (ts_table ts) pk j t')) as Hcase.
    { intros pk j t' Ha. destruct (decide (pk = ta_pubkey t)) as [->|Hne]; [left|right; split; [done|by apply Hoth]].
      destruct (at_pos_fun _ _ _ _ _ _ Htb Ha Hat) as [-> ->]. done. }
    assert (forall j t', stored tb j t' -> (j = i /\ t' = t) \/ (j <> i /\ stored (ts_table ts) j t')) as Hst.
    { intros j t' Hj. destruct (decide (j = i)) as [->|Hne]; [left; split; [done|by eapply stored_fun; [exact Hj|apply Hat]]|right].
      split; [done|]. destruct Hj. split; [done|]. by rewrite <- Hsame. }
    destruct b; constructor; simpl.
    + intros pk j t' Ha. destruct (Hcase _ _ _ Ha) as [(-> & -> & ->)|[_ Ha']]; [apply push_at_new|].
      destruct (M1 _ _ _ Ha') as (ixs & ? & ?). by eapply push_at_old.
    + destruct Hb1 as [-> _]; [done|]. intros k ixs j t' Hk Hj Hst' Hd. destruct (push_at_inv _ _ _ _ _ _ Hk Hj) as [[-> ->]|(ixs0 & Hk0 & Hj0)].
      * destruct (Hst _ _ Hst') as [[_ ->]|[? _]]; done.
      * destruct (Hst _ _ Hst') as [[-> _]|[_ Hst0]]; [apply M3 with (i := length (tb_accounts (ts_table ts))) in Hk0; [lia|done]|by eapply M2].
    + destruct Hb1 as [-> _]; [done|]. intros k ixs j Hk Hj. destruct (push_at_inv _ _ _ _ _ _ Hk Hj) as [[-> ->]|(ixs0 & Hk0 & Hj0)].
      * destruct Hat as ([_ Hlk] & _). by apply lookup_lt_Some in Hlk.
      * eapply Nat.lt_le_trans; [by eapply M3|done].
    + intros pk j t' Ha. destruct (Hcase _ _ _ Ha) as [(-> & -> & ->)|[_ Ha']]; [|by eapply M1].
      destruct Hb0 as [t0 Ha0]; [done|]. destruct (M1 _ _ _ Ha0) as (ixs & ? & ?). exists ixs. split; [|done].
      rewrite (Hms t t0); [done|done|by eapply Q2|]. by destruct Ha0 as (_ & -> & _).
    + intros k ixs j t' Hk Hj Hst' Hd. destruct (Hst _ _ Hst') as [[-> ->]|[_ Hst0]]; [|by eapply M2].
      destruct Hb0 as [t0 Ha0]; [done|]. rewrite (Hms t t0); [|done|by eapply Q2|by destruct Ha0 as (_ & -> & _)].
      eapply M2; [done..|apply Ha0|by eapply (ti_live _ Hi)].
    + intros k ixs j Hk Hj. eapply Nat.lt_le_trans; [by eapply M3|done].
  - destruct (ts_mint_ix ts !! ma_pubkey m); injection H as <-; by constructor.
  - injection H as <-. by constructor.
  - rewrite (Hnd q eq_refl) in H.
    destruct (tb_delete _ _) as [tb|] eqn:Hd; [|done]. cbn [mbind res_bind] in H. injection H as <-.
    destruct (tb_delete_spec _ q (ti_table _ Hi)) as (tb1 & H1 & _ & Hat & Hlen & _). rewrite Hd in H1. injection H1 as <-. constructor; simpl.
    + intros pk j t Ha. apply Hat in Ha as [_ Ha]. by eapply M1.
    + intros k ixs j t Hk Hj Hst Hdl. destruct (stored_deleted_pos _ _ _ _ (ti_table _ Hi) Hd t Hst) as [Hst0| ->]; [by eapply M2|done].
    + intros k ixs j Hk Hj. rewrite Hlen. by eapply M3.
Qed.
(** Indices are those of the mint the delivered data names. *)
Definition named (E : ext) (l0 : list tsop) (ts : tstore) (x : tpa) : Prop :=
  forall t, x = TPToken t -> exists o r, o ∈ l0 /\ op_token E o (ta_pubkey t) r /\ ts_mint_ix ts !! sa_mint r = Some (ta_mint t).
Lemma named_mono E l0 l1 ts ts' x : (forall o, o ∈ l0 -> o ∈ l1) -> (forall o q i, o ∈ l0 -> op_names E o q -> ts_mint_ix ts !! q = Some i -> ts_mint_ix ts' !! q = Some i) ->
  named E l0 ts x -> named E l1 ts' x.
Proof.
  intros H1 H2 H t ->. destruct (H t eq_refl) as (o & r & Ho & Hop & Hr). exists o, r. split; [auto|]. split; [done|]. apply (H2 o); [done| |done].
  destruct Hop as (a & v & ? & ? & ? & ?). by exists a, v, r.
Qed.
Lemma now_named E ts ts' o x : tinv ts -> comes_now E ts ts' o x -> named E [o] ts' x.
Proof.
  intros Hi (a & ix' & ctr' & Ho & Hp & Ht & Hix) t ->.
  apply account_type_inv in Ht as [(? & _)|[Hl (p & v & Hw & Hv & [(m' & y & Hu & ? & _)|[(m' & Hu & ? & _)|(s & i & Hu & Hmi & [= ->])]])]]; try done.
  exists o, s. split; [by apply elem_of_list_singleton|]. split; [by exists a, v|]. eapply Hix; [|done]. by apply mint_index_found in Hmi.
Qed.
Lemma run_named E X l0 l ts ts' : ts_run E X ts l = Done ts' -> ops_ok l -> tinv ts -> ts_ctr ts' <= 2 ^ 32 ->
  (forall o q x, o ∈ l0 ++ l -> op_names E o q -> x ∈ (ts_log E X ts l).*1 -> x <> TPDeleted q) ->
  (forall s pk v, version (ts_pend ts) s pk v -> named E l0 ts v.1) ->
  (forall x, x ∈ (ts_log E X ts l).*1 -> named E (l0 ++ l) ts' x).
Proof.
  revert l0 ts. induction l as [|o l IH]; intros l0 ts H Hok Hi Hc Hdel Hp x Hx; [by apply elem_of_nil in Hx|].
  cbn [ts_run ts_log] in H, Hx. assert (ts_run E X ts (o :: l) = Done ts') as Hfull by exact H. cbn [ts_log] in Hdel.
  apply Forall_cons in Hok as [Ho Hok]. destruct (ts_step E X ts o) as [ts1|] eqn:H1; [|done]. cbn [mbind res_bind] in H.
  pose proof (run_ctr _ _ _ _ _ H Hok). assert (ts_ctr ts1 <= 2 ^ 32) as Hc1 by lia.
  pose proof (step_inv _ _ _ _ _ H1 Ho Hi Hc1) as Hi1. rewrite fmap_app in Hdel, Hx.
  assert (forall q i, (exists o', o' ∈ l0 ++ o :: l /\ op_names E o' q) -> ts_mint_ix ts1 !! q = Some i -> ts_mint_ix ts' !! q = Some i) as Hk2.
  { intros q i (o' & Ho' & Hn) Hq. eapply run_ix_keep; [exact H|done|done|done| |done]. intros y Hy. eapply Hdel; [exact Ho'|done|]. apply elem_of_app. by right. }
  assert (forall q i, (exists o', o' ∈ l0 ++ o :: l /\ op_names E o' q) -> ts_mint_ix ts !! q = Some i -> ts_mint_ix ts1 !! q = Some i) as Hk1.
  { intros q i (o' & Ho' & Hn) Hq. eapply (run_ix_keep E X [o] ts ts1); [|by repeat constructor|done|done| |done].
    - cbn [ts_run]. by rewrite H1.
    - intros y Hy. cbn [ts_log] in Hy. rewrite H1 in Hy. rewrite app_nil_r in Hy. eapply Hdel; [exact Ho'|done|]. apply elem_of_app. by left. }
  destruct (step_origin_now _ _ _ _ _ H1 Ho Hi Hc1) as [Hv Hd].
  apply elem_of_app in Hx as [Hx|Hx].
  - destruct (Hd x Hx) as [(s & pk & v & Hy & <-)|Hy].
    + eapply named_mono; [| |by eapply Hp].
      * intros o' Ho'. apply elem_of_app. by left.
      * intros o' q i Ho' Hn Hq. apply Hk2; [exists o'; split; [apply elem_of_app; by left|done]|]. apply Hk1; [|done]. exists o'; split; [apply elem_of_app; by left|done].
    + eapply named_mono; [| |exact (now_named _ _ _ _ _ Hi Hy)].
      * intros o' Ho'. apply elem_of_list_singleton in Ho' as ->. apply elem_of_app. right. left.
      * intros o' q i Ho' Hn Hq. apply elem_of_list_singleton in Ho' as ->. apply Hk2; [|done]. exists o. split; [|done]. apply elem_of_app. right. left.
  - replace (l0 ++ o :: l) with ((l0 ++ [o]) ++ l) by (by rewrite <- app_assoc). eapply IH; [exact H|done|done|done| | |exact Hx].
    + intros o' q y Ho' Hn Hy. rewrite <- app_assoc in Ho'. eapply Hdel; [exact Ho'|done|]. apply elem_of_app. by right.
    + intros s pk v Hy. destruct (Hv s pk v Hy) as [Hy'|[Hy' _]].
      * eapply named_mono; [| |by eapply Hp].
        -- intros o' Ho'. apply elem_of_app. by left.
        -- intros o' q i Ho' Hn Hq. apply Hk1; [|done]. exists o'. split; [apply elem_of_app; by left|done].
      * eapply named_mono; [| |exact (now_named _ _ _ _ _ Hi Hy')].
        -- intros o' Ho'. apply elem_of_app. by right.
        -- done.
Qed.
Lemma log_mint_stable E X l ts : ts_run E X ts_empty l = Done ts -> ops_ok l -> ts_ctr ts <= 2 ^ 32 -> keeps_mint E l -> mints_stay E l ->
  mint_stable (ts_log E X ts_empty l).*1.
Proof.
  intros H Hok Hc Hk Hm t t' Ht Ht' He.
  assert (forall x, x ∈ (ts_log E X ts_empty l).*1 -> named E ([] ++ l) ts x) as Hn.
  { apply run_named; try done; [apply tinv_empty| |].
    - intros o q x Ho Hn Hx ->. destruct (log_origin _ _ _ _ H Hok Hc _ Hx) as (o' & Ho' & Hcf). apply comes_closes in Hcf. by eapply (Hm o o' q); [..|left|].
    - intros s pk v (b & Hb & _). by apply elem_of_nil in Hb. }
  destruct (Hn _ Ht t eq_refl) as (o & r & Ho & Hop & Hr). destruct (Hn _ Ht' t' eq_refl) as (o' & r' & Ho' & Hop' & Hr'). rewrite <- He in Hop'.
  simpl in Ho, Ho'. rewrite (Hk _ _ _ _ _ Ho Ho' Hop Hop') in Hr. congruence.
Qed.
Lemma run_minv E X l ts : ts_run E X ts_empty l = Done ts -> ops_ok l -> ts_ctr ts <= 2 ^ 32 -> keeps_mint E l -> mints_stay E l -> tidy E l ->
  minv (ts_log E X ts_empty l).*1 ts /\ (forall pk i t, at_pos (ts_table ts) pk i t -> TPToken t ∈ (ts_log E X ts_empty l).*1) /\
  forall i t, stored (ts_table ts) i t -> ta_deleted t = false -> at_pos (ts_table ts) (ta_pubkey t) i t.
Proof.
  intros H Hok Hc Hkm Hms Htd. pose proof (log_mint_stable _ _ _ _ H Hok Hc Hkm Hms) as Hst. pose proof (log_isolated _ _ _ _ H Hok Hc Htd) as Hiso.
  set (LL := (ts_log E X ts_empty l).*1) in *.
  assert (minv LL ts /\ (forall pk i t, at_pos (ts_table ts) pk i t -> TPToken t ∈ LL) /\ (forall i t, stored (ts_table ts) i t -> ta_deleted t = false -> at_pos (ts_table ts) (ta_pubkey t) i t) /\
    (forall q i, ts_mint_ix ts !! q = Some i -> exists o, o ∈ l /\ (op_names E o q \/ op_mint E o q))) as (? & ? & ? & _); [|done].
  apply (run_ind E X (fun ts _ => minv LL ts /\ (forall pk i t, at_pos (ts_table ts) pk i t -> TPToken t ∈ LL) /\ (forall i t, stored (ts_table ts) i t -> ta_deleted t = false -> at_pos (ts_table ts) (ta_pubkey t) i t) /\
    (forall q i, ts_mint_ix ts !! q = Some i -> exists o, o ∈ l /\ (op_names E o q \/ op_mint E o q))) (fun o => o ∈ l) (fun x => x ∈ LL)) with (l := l) (ts := ts_empty); try done.
  - intros ts0 o ts1 _ _ _ Hol ([M1 M2 M3] & Hl & Hlv & Hx) Hs. split; [constructor; rewrite ?(sf_table _ _ _ _ Hs), ?(sf_by_mint _ _ _ _ Hs); done|].
    rewrite (sf_table _ _ _ _ Hs). split; [done|]. split; [done|]. intros q i Hq. destruct (ts_mint_ix ts0 !! q) as [j|] eqn:Hj; [by eapply Hx|].
    destruct (sf_new _ _ _ _ Hs _ _ Hq Hj) as [_ ?]. exists o. auto.
  - intros ts0 a ts1 _ Hi Hc0 Ha HL (HM & Hl & Hlv & Hx) H1. destruct (log_origin _ _ _ _ H Hok Hc _ HL) as (oa & Hoa & Hcf). split; [|split; [|split]].
    + eapply (add_finalized_minv LL ts0 a ts1); try done. intros q ->. apply comes_closes in Hcf. destruct (ts_mint_ix ts0 !! q) as [i|] eqn:Hq; [|done].
      destruct (Hx _ _ Hq) as (o & Ho & Hn). by destruct (Hms o oa q Ho Hoa Hn).
    + destruct a as [t|m|m q|q]; simpl in H1.
      * pose proof (tpa_ok_good _ _ Ha Hc0) as Hg. unfold add_token in H1.
        destruct (tb_save_spec _ t (ti_table _ Hi) Hg) as (tb & i & b & Hs & Htb & Hat & Hoth & _). rewrite Hs in H1. cbn [mbind res_bind] in H1. injection H1 as <-.
        assert (forall pk j t', at_pos tb pk j t' -> TPToken t' ∈ LL) as Hgo; [|by destruct b].
        intros pk j t' Ha'. destruct (decide (pk = ta_pubkey t)) as [->|Hne]; [by destruct (at_pos_fun _ _ _ _ _ _ Htb Ha' Hat) as [-> ->]|]. apply Hoth in Ha'; [|done]. by eapply Hl.
      * by destruct (ts_mint_ix ts0 !! ma_pubkey m); injection H1 as <-.
      * by injection H1 as <-.
      * destruct (ts_mint_ix ts0 !! q); [by injection H1 as <-|]. destruct (tb_delete _ _) as [tb|] eqn:Hd; [|done]. cbn [mbind res_bind] in H1. injection H1 as <-.
        destruct (tb_delete_spec _ q (ti_table _ Hi)) as (tb1 & He & _ & Hat & _). rewrite Hd in He. injection He as <-. intros pk j t Ha'. apply Hat in Ha' as [_ Ha']. by eapply Hl.
    + destruct a as [t|m|m q|q]; simpl in H1.
      * pose proof (tpa_ok_good _ _ Ha Hc0) as Hg. unfold add_token in H1. destruct (tb_save _ _) as [[[tb i] b]|] eqn:Hs; [|done]. cbn [mbind res_bind] in H1. injection H1 as <-.
        pose proof (save_live _ _ _ _ _ (ti_table _ Hi) Hg Hs Hlv). by destruct b.
      * by destruct (ts_mint_ix ts0 !! ma_pubkey m); injection H1 as <-.
      * by injection H1 as <-.
      * destruct (ts_mint_ix ts0 !! q); [by injection H1 as <-|]. destruct (tb_delete _ _) as [tb|] eqn:Hd; [|done]. cbn [mbind res_bind] in H1. injection H1 as <-.
        apply (delete_live _ _ _ (ti_table _ Hi) Hd Hlv). intros j t Hst' Hdl Hf. apply (Hiso q t); [done|by eapply Hl, Hlv|done].
    + destruct a as [t|m|m q|q].
      * apply add_finalized_token_ix in H1. by rewrite H1.
      * simpl in H1. apply comes_mint in Hcf. destruct (ts_mint_ix ts0 !! ma_pubkey m) eqn:Hm; injection H1 as <-; [done|]. simpl. intros q i Hq.
        apply lookup_insert_Some in Hq as [[<- _]|[_ Hq]]; [exists oa; auto|by eapply Hx].
      * by injection H1 as <-.
      * simpl in H1. destruct (ts_mint_ix ts0 !! q); [injection H1 as <-; simpl; intros q' i Hq'; apply lookup_delete_Some in Hq' as [_ Hq']; by eapply Hx|].
        destruct (tb_delete _ _); [|done]. by injection H1 as <-.
  - by apply Forall_forall.
  - by apply Forall_forall.
  - apply tinv_empty.
  - split; [apply minv_empty|]. simpl. split; [|split].
    + intros pk i t (_ & _ & ixs & Hk & _). simpl in Hk. by rewrite lookup_empty in Hk.
    + intros i t [_ Hk]. simpl in Hk. by rewrite lookup_nil in Hk.
    + intros q i Hq. by rewrite lookup_empty in Hq.
Qed.
