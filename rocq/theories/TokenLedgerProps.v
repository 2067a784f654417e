(** Token accounts and the ledger: what reads answer on orderly streams (C92). *)
From Verif Require Import Base SMap DataModel BincodeModel BincodeProofs FilterModel StoreModel TokenModel TokenProofs TokenProps SplModel SplProofs TokenUtilsModel
  TokenUtilsProofs TokenPendModel TokenPendSpec TokenPendProofs TokenPendProps TokenUtilsProps TokenStoreModel TokenStoreSpec TokenStoreProofs TokenStoreViews TokenStoreProps TokenStoreOrder
  TokenStoreQuery TokenStoreQueryProps TokenStoreSafe TokenStoreServed TokenLedgerSpec TokenLedgerProofs TokenLedgerKey.
#[local] Arguments le : simpl never.
#[local] Arguments unle : simpl never.
#[local] Opaque to_bytes from_bytes peek_pubkey.

Lemma last_of_snoc log x pk : last_of (log ++ [x]) pk = if decide (tpa_pubkey x = pk) then Some x else last_of log pk.
Proof.
  unfold last_of. rewrite filter_app. destruct (decide _) as [He|He]; [rewrite filter_cons_True by done|rewrite filter_cons_False by done]; rewrite filter_nil.
  - by rewrite last_snoc.
  - by rewrite app_nil_r.
Qed.
Lemma tok_last log pk : (forall x, x ∈ log -> tpa_pubkey x = pk -> x = TPDeleted pk \/ exists t, x = TPToken t) ->
  tok_state log pk = match last_of log pk with Some (TPToken t) => Some t | _ => None end.
Proof.
  induction log as [|x log IH] using rev_ind; intros H; [done|]. rewrite last_of_snoc, tok_state_snoc, IH by (intros y Hy; apply H; set_solver).
  destruct (decide _) as [He|He].
  - destruct (H x) as [->|[t ->]]; [set_solver|done|simpl; by rewrite N.eqb_refl|]. simpl in He |- *. by rewrite He, N.eqb_refl.
  - destruct x; simpl in He |- *; try done; by rewrite (proj2 (N.eqb_neq _ _)).
Qed.
Lemma mint_last log pk : (forall x, x ∈ log -> tpa_pubkey x = pk -> exists m, x = TPMint m) ->
  mint_state log pk = match last_of log pk with Some (TPMint m) => Some m | _ => None end.
Proof.
  induction log as [|x log IH] using rev_ind; intros H; [done|]. rewrite last_of_snoc, mint_state_snoc, IH by (intros y Hy; apply H; set_solver).
  destruct (decide _) as [He|He].
  - destruct (H x) as [m ->]; [set_solver|done|]. simpl in He |- *. by rewrite He, N.eqb_refl.
  - destruct x; simpl in He |- *; try done; by rewrite (proj2 (N.eqb_neq _ _)).
Qed.
Lemma multi_last log pk : (forall x, x ∈ log -> tpa_pubkey x = pk -> exists m, x = TPMulti m pk) ->
  multi_state log pk = match last_of log pk with Some (TPMulti m _) => Some m | _ => None end.
Proof.
  induction log as [|x log IH] using rev_ind; intros H; [done|]. rewrite last_of_snoc, multi_state_snoc, IH by (intros y Hy; apply H; set_solver).
  destruct (decide _) as [He|He].
  - destruct (H x) as [m ->]; [set_solver|done|]. simpl. by rewrite N.eqb_refl.
  - destruct x; simpl in He |- *; try done; by rewrite (proj2 (N.eqb_neq _ _)).
Qed.
Lemma last_of_in log pk x : last_of log pk = Some x -> x ∈ log /\ tpa_pubkey x = pk.
Proof. intros H. apply last_in in H. by apply elem_of_list_filter in H as [? ?]. Qed.
Lemma closed_dec a : closed a \/ ~ closed a.
Proof.
  unfold closed, token_owned. destruct (decide (d_lamports a = 0)); [by left; left|]. destruct (decide (d_owner a = spl_token_id)); [right; tauto|]. destruct (decide (d_owner a = spl_2022_id)); [right; tauto|left; right; tauto].
Qed.
Lemma live_open E a p v : live_with E a p v -> ~ closed a.
Proof. intros [H1 H2 _ _] [|H]; [done|]. apply H. destruct p; [by left|by right]. Qed.
Lemma live_owned E a p v : live_with E a p v -> token_owned a.
Proof. intros [_ H _ _]. destruct p; [by left|by right]. Qed.
Lemma step_token_ix E X ts o a t ix ctr ts' : op_acct o = Some a -> is_token ts a = Done true -> account_type E a (ts_mint_ix ts) (ts_ctr ts) = Done (Some (TPToken t, ix, ctr)) ->
  ts_step E X ts o = Done ts' -> ts_mint_ix ts' = ix.
Proof.
  intros Ho Hk Ht Hst. destruct o as [b c|b|ord si c|q z]; simpl in Ho; try done; injection Ho as ->; simpl in Hst.
  - unfold ts_update in Hst. rewrite Hk in Hst. cbn [mbind res_bind] in Hst. rewrite Ht in Hst. cbn [mbind res_bind] in Hst. destruct c.
    + destruct (pd_insert _ _ _ _ _) as [p b0]. by injection Hst as <-.
    + destruct (pd_insert _ _ _ _ _) as [p b0]. by injection Hst as <-.
    + destruct (add_finalized _ _) as [ts1|] eqn:H1; [|done]. cbn [mbind res_bind] in Hst. injection Hst as <-. by rewrite (add_finalized_token_ix _ _ _ H1).
  - unfold ts_init in Hst. rewrite Hk in Hst. cbn [mbind res_bind] in Hst. rewrite Ht in Hst. cbn [mbind res_bind] in Hst. by rewrite (add_finalized_token_ix _ _ _ Hst).
Qed.

(** What the store keeps of a version, given the final mint indices. *)
Definition kept (E : ext) (l : list tsop) (ix : gmap pubkey N) (a : acct) (ty : tpa) : Prop :=
  (closed a /\ ty = TPDeleted (d_pubkey a)) \/
  (exists o p v r i, o ∈ l /\ op_acct o = Some a /\ live_with E a p v /\ clean_token v /\ unpack_account v = Some r /\ ix !! sa_mint r = Some i /\ ty = TPToken (of_spl_account p a r i None)).
Definition kept_mint (E : ext) (a : acct) (ty : tpa) : Prop :=
  exists p v r, live_with E a p v /\ unpack_mint v = Some r /\ ty = TPMint (of_spl_mint p a r None).

(** What a conversion shows of a version. *)
Definition shown (E : ext) (a : acct) (slot : N) (x : option acct) : Prop :=
  (closed a /\ x = None) \/
  (~ closed a /\ exists b, x = Some b /\ d_pubkey b = d_pubkey a /\ d_owner b = d_owner a /\ data_bytes E (d_data b) = data_bytes E (d_data a) /\ d_slot b = slot).
Lemma reads_show E pk (T : acct -> tpa -> Prop) L ts log c : tl_ok L -> tslots E L ts -> tinv ts -> parents_before (ts_pend ts) -> kinv pk T L ts log ->
  (forall a ty slot, T a ty -> d_pubkey a = pk -> exists x, tpa_to_acct ty slot 0 (ts_mints ts) = Done x /\ shown E a slot x) ->
  (exists o x, in_tledger L pk Finalized o /\ get_fin ts pk = Done x /\ match o with None => x = None | Some a => shown E a (ts_fin ts) x end) ->
  exists o x, in_tledger L pk c o /\ ts_get ts pk c = Done (ROk x) /\ answers E L o x.
Proof.
  intros I1 I2 I3 I4 Hkv Hshow (of & xf & Hof & Hgf & Hxf).
  assert (forall c', in_tledger L pk c' of -> exists o x, in_tledger L pk c' o /\ (x ← get_fin ts pk; Done (ROk x)) = Done (ROk x) /\ answers E L o x) as Hfin.
  { intros c' Hc'. exists of, xf. split; [done|]. rewrite Hgf. split; [done|]. destruct of as [a|]; [|done]. destruct Hxf as [[H1 H2]|[H1 (b & -> & H2 & H3 & H4 & H5)]]; [by left|].
    right. split; [done|]. exists b. split_and!; try done. right. split; [by destruct Hof as [[? _] _]|]. by rewrite H5, (sl_fin _ _ _ I2). }
  destruct (decide (c = Finalized)) as [->|Hcf]; [by apply Hfin|].
  destruct (pend_ledger E pk T L ts log c I1 I2 I3 I4 Hkv Hcf) as (r & g & Hr & Hg & H).
  assert (ts_get ts pk c = match g with Some ((ty, _), slot) => x ← tpa_to_acct ty slot 0 (ts_mints ts); Done (ROk x) | None => x ← get_fin ts pk; Done (ROk x) end) as Hget.
  { unfold ts_get. destruct c; [| |done]; rewrite Hr; cbn [mbind res_bind]; rewrite Hg; done. }
  rewrite Hget. destruct g as [[[ty w] s]|]; [|apply Hfin; by apply H]. destruct H as (a & Ha & HT & Hs & Hw & Hnf).
  destruct (Hshow a ty s HT) as (x & Hx & Hsh); [by destruct Ha as [[_ ?] _]|]. exists (Some a), x. split; [done|]. rewrite Hx. split; [done|].
  destruct Hsh as [[H1 H2]|[H1 (b & -> & H2 & H3 & H4 & H5)]]; [by left|]. right. split; [done|]. exists b. split_and!; try done. left. split; [done|]. by rewrite Hs.
Qed.

(** Mints that are only ever delivered open. *)
Lemma mint_kinv E X l L ts q : t_orderly E l L -> ops_ok l -> ts_run E X ts_empty l = Done ts -> ts_ctr ts <= 2 ^ 32 ->
  (forall o b, o ∈ l -> op_acct o = Some b -> d_pubkey b = q -> exists p w, live_with E b p w /\ is_Some (unpack_mint w)) ->
  kinv q (kept_mint E) L ts (ts_log E X ts_empty l).*1.
Proof.
  intros Ho Hok Hr Hc Hq. eapply orderly_kinv; try done. intros l1 o l2 a L1 ts1 ts2 -> Ha Hk _ _ _ _ _ _.
  destruct (Hq o a) as (p & w & Hl & [r Hu]); [set_solver|done|done|]. unfold accepted. rewrite (owned_token _ _ (live_owned _ _ _ _ Hl)), (type_mint _ _ _ _ _ _ _ Hl Hu).
  eexists. split; [done|]. by exists p, w, r.
Qed.
Lemma mint_finalized E X l L ts q : t_orderly E l L -> ops_ok l -> ts_run E X ts_empty l = Done ts -> ts_ctr ts <= 2 ^ 32 ->
  (forall o b, o ∈ l -> op_acct o = Some b -> d_pubkey b = q -> exists p w, live_with E b p w /\ is_Some (unpack_mint w)) ->
  (exists m, tcounts L Finalized m /\ d_pubkey m = q) -> exists a p v r, in_tledger L q Finalized (Some a) /\ live_with E a p v /\ unpack_mint v = Some r /\
    mint_state (ts_log E X ts_empty l).*1 q = Some (of_spl_mint p a r None).
Proof.
  intros Ho Hok Hr Hc Hq (m & Hm & Hmk). destruct (mint_kinv E X l L ts q Ho Hok Hr Hc Hq) as [_ _ (o & Hin & Hl) Hlog].
  destruct o as [a|]; [|by destruct (Hin m)]. destruct Hl as (ty & Hl & p & v & r & H1 & H2 & ->). exists a, p, v, r. split_and!; try done.
  rewrite mint_last; [by rewrite Hl|]. intros x Hx Hk. destruct (Hlog x Hx Hk) as (b & p' & v' & r' & _ & _ & ->). eauto.
Qed.
(** An open mint keeps its index. *)
Lemma mint_ix_keep E X l1 o l2 ts1 ts2 ts q i : ops_ok (l1 ++ o :: l2) -> ts_run E X ts_empty (l1 ++ o :: l2) = Done ts -> ts_run E X ts_empty l1 = Done ts1 -> ts_step E X ts1 o = Done ts2 ->
  ts_run E X ts2 l2 = Done ts -> ts_ctr ts <= 2 ^ 32 ->
  (forall o' b, o' ∈ l1 ++ o :: l2 -> op_acct o' = Some b -> d_pubkey b = q -> exists p w, live_with E b p w /\ is_Some (unpack_mint w)) ->
  ts_mint_ix ts2 !! q = Some i -> ts_mint_ix ts !! q = Some i.
Proof.
  intros Hok Hr H1 Hst H2 Hc Hq Hi. pose proof (log_origin _ _ _ _ Hr Hok Hc) as Horg. apply Forall_app in Hok as [Hk1 Hk2]. apply Forall_cons in Hk2 as [Hko Hk2].
  pose proof (run_ctr _ _ _ _ _ H2 Hk2). pose proof (step_ctr _ _ _ _ _ Hst Hko).
  assert (tinv ts1) as I1 by (apply (run_inv _ _ _ _ _ H1); [done|apply tinv_empty|lia]). assert (tinv ts2) as I2 by (apply (step_inv E X ts1 o); [done..|lia]).
  apply (run_ix_keep E X l2 ts2 ts); try done. intros x Hx ->. destruct (Horg (TPDeleted q)) as (o' & Ho' & Hcx).
  - rewrite (log_app _ _ _ _ _ _ H1), fmap_app. apply elem_of_app. right. cbn [ts_log]. rewrite Hst, fmap_app. apply elem_of_app. by right.
  - apply comes_closes in Hcx as (b & Hb & Hbk & Hcl). destruct (Hq o' b Ho' Hb Hbk) as (p & w & Hl & _). apply (live_open _ _ _ _ Hl). destruct Hcl as [?|[? ?]]; [by left|right; by intros [?|?]].
Qed.

Lemma token_kinv E X l L ts pk : t_orderly E l L -> ops_ok l -> ts_run E X ts_empty l = Done ts -> ts_ctr ts <= 2 ^ 32 -> token_account_key E l pk -> mints_known E l L pk ->
  kinv pk (kept E l (ts_mint_ix ts)) L ts (ts_log E X ts_empty l).*1.
Proof.
  intros Ho Hok Hr Hc Hkey Hmk. eapply orderly_kinv; try done. intros l1 o l2 a L1 ts1 ts2 -> Ha Hk Ho1 H1 Hi1 Hst H2 Hkv.
  assert (o ∈ l1 ++ o :: l2) as Hin by set_solver. destruct (tk_kind _ _ _ (tk_here _ _ _ Hkey) o a Hin Ha Hk) as [Hcl|(p & v & r & Hl & Hcn & Hu)].
  - assert (is_token ts1 a = Done true) as Ht.
    { destruct (decide (d_owner a = spl_token_id)) as [He|Hn1]; [apply owned_token; by left|]. destruct (decide (d_owner a = spl_2022_id)) as [He|Hn2]; [apply owned_token; by right|].
      assert (~ token_owned a) as Hno by (by intros [?|?]). destruct Hkv as [_ _ (y & Hy & Hly) Hlog].
      destruct (tk_leaves _ _ _ Hkey l1 o l2 a L1 eq_refl Ha Hk Hno Ho1 y Hy) as (x & -> & Hxo). destruct Hly as (ty & Hly & Hty).
      assert (exists t, tok_state (ts_log E X ts_empty l1).*1 pk = Some t) as [t Htk].
      { rewrite tok_last, Hly.
        - destruct Hty as [[? _]|(o1 & p & v & r & i & _ & _ & _ & _ & _ & _ & ->)]; [done|by eexists].
        - intros z Hz Hzk. destruct (Hlog z Hz Hzk) as (b & [[_ ->]|(o1 & p & v & r & i & _ & _ & _ & _ & _ & _ & ->)]); [left; by rewrite <- Hzk|right; by eexists]. }
      apply Forall_app in Hok as [Hk1 Hk2]. apply Forall_cons in Hk2 as [Hko Hk2]. pose proof (run_ctr _ _ _ _ _ H2 Hk2). pose proof (step_ctr _ _ _ _ _ Hst Hko).
      destruct (run_holds E X l1 ts1 pk H1 Hk1) as [_ Hh]; [lia|intros o' Ho'; apply (tk_names _ _ _ (tk_here _ _ _ Hkey)); set_solver|intros o' Ho'; apply (tk_alone _ _ _ (tk_here _ _ _ Hkey)); set_solver|].
      destruct (rep_exists _ (ti_table _ Hi1)) as [m Hm]. destruct (tb_contains_spec _ m pk (ti_table _ Hi1) Hm) as (c & Hcn & Hcs & _).
      destruct Hcs as (i & t' & -> & _); [exists t; apply Hm; by apply Hh|]. unfold is_token. rewrite Hk. destruct (_ || _); [done|]. by rewrite Hcn. }
    exists (TPDeleted (d_pubkey a)). split; [|by left]. unfold accepted. rewrite Ht, type_closed by done. done.
  - destruct (Hmk o a p v r Hin Ha Hk Hl Hu) as [Hmo _]. unfold accepted. rewrite (owned_token _ _ (live_owned _ _ _ _ Hl)), (type_token _ _ _ _ _ _ _ Hl Hu).
    destruct (mint_index (sa_mint r) (ts_mint_ix ts1) (ts_ctr ts1)) as [[i ix'] ctr'] eqn:Hmi. eexists. split; [done|]. right. exists o, p, v, r, i. split_and!; try done.
    apply (mint_ix_keep E X l1 o l2 ts1 ts2 ts); try done.
    assert (ts_mint_ix ts2 = ix') as ->.
    { eapply (step_token_ix E X ts1 o a); try done; [apply owned_token; by eapply live_owned|]. rewrite (type_token _ _ _ _ _ _ _ Hl Hu), Hmi. done. }
    unfold mint_index in Hmi. destruct (ts_mint_ix ts1 !! sa_mint r) as [j|] eqn:Hj; simplify_eq; [done|]. apply lookup_insert.
Qed.

(** A kept version of a token account is shown as it was. *)
Lemma token_shown E X l L ts pk : t_orderly E l L -> ops_ok l -> ts_run E X ts_empty l = Done ts -> ts_ctr ts <= 2 ^ 32 -> mints_known E l L pk ->
  forall a ty slot, kept E l (ts_mint_ix ts) a ty -> d_pubkey a = pk -> exists x, tpa_to_acct ty slot 0 (ts_mints ts) = Done x /\ shown E a slot x.
Proof.
  intros Ho Hok Hr Hc Hmk. destruct (orderly_run E X l L ts Ho Hok Hr Hc) as (I1 & I2 & I3 & I4).
  intros a ty slot [[Hcl ->]|(o & p & v & r & i & Hin & Ha & Hl & (r' & Hr' & -> & Hd) & Hu & Hi & ->)] Hpk; [exists None; split; [done|by left]|].
  rewrite (unpack_pack_account r' Hr') in Hu. injection Hu as <-. pose proof (unpack_pack_account r' Hr') as Hu.
  destruct (Hmk o a p _ r' Hin Ha Hpk Hl Hu) as [Hmo Hm]. destruct (mint_finalized E X l L ts (sa_mint r') Ho Hok Hr Hc Hmo Hm) as (m & pm & vm & rm & _ & _ & _ & Hms).
  destruct (run_agrees _ _ _ _ Hr Hok Hc) as [_ Hb]. apply Hb in Hms as (j & Hj & Hms). rewrite Hi in Hj. injection Hj as <-.
  assert (ma_pubkey (of_spl_mint pm m rm None) = sa_mint r') as Hmp. { destruct (ti_ix _ I3) as [Hinj _]. apply (Hinj _ _ i); [|done]. by apply (ti_mints _ I3). }
  cbn [tpa_to_acct]. rewrite (token_back E a p _ r' i (ts_mints ts) _ slot 0 Hl Hu Hms Hmp). eexists. split; [done|]. right. split; [by eapply live_open|].
  eexists. split; [done|]. simpl. rewrite (norm_id r' Hd). split_and!; try done. by rewrite (lw_data _ _ _ _ Hl).
Qed.

(** ** C92.  On an orderly stream a read of a token account answers, at every commitment, for the newest version of the ledger that counts. *)
Theorem C92_token_reads_show_ledger E X l L ts pk c : t_orderly E l L -> ops_ok l -> ts_run E X ts_empty l = Done ts -> ts_ctr ts <= 2 ^ 32 ->
  token_account_key E l pk -> mints_known E l L pk ->
  exists o x, in_tledger L pk c o /\ ts_get ts pk c = Done (ROk x) /\ answers E L o x.
Proof.
  intros Ho Hok Hr Hc Hkey Hmk. pose proof (token_kinv E X l L ts pk Ho Hok Hr Hc Hkey Hmk) as Hkv. destruct (orderly_run E X l L ts Ho Hok Hr Hc) as (I1 & I2 & I3 & I4).
  pose proof (token_shown E X l L ts pk Ho Hok Hr Hc Hmk) as Hshow.
  eapply reads_show; try done. destruct Hkv as [_ _ (o & Hof & Hl) Hlog].
  assert (forall x, x ∈ (ts_log E X ts_empty l).*1 -> tpa_pubkey x = pk -> x = TPDeleted pk \/ exists t, x = TPToken t) as Hkinds.
  { intros z Hz Hzk. destruct (Hlog z Hz Hzk) as (b & [[_ ->]|(o1 & p & v & r & i & _ & _ & _ & _ & _ & _ & ->)]); [left; by rewrite <- Hzk|right; by eexists]. }
  assert (multi_state (ts_log E X ts_empty l).*1 pk = None) as Hms.
  { apply multi_state_none. intros m Hm. destruct (Hkinds _ Hm eq_refl) as [|[t ?]]; done. }
  pose proof (C46_token_partial E X l ts pk Hr Hok Hc (tk_names _ _ _ (tk_here _ _ _ Hkey)) (tk_alone _ _ _ (tk_here _ _ _ Hkey)) Hms) as Hget. rewrite (tok_last _ _ Hkinds) in Hget. cbn [ts_get] in Hget.
  assert (forall x, (o ← get_fin ts pk; Done (ROk o)) = Done (ROk x) -> get_fin ts pk = Done x) as Hunf.
  { intros x Hx. destruct (get_fin ts pk); [|done]. cbn [mbind res_bind] in Hx. by injection Hx as ->. }
  exists o. destruct o as [a|]; [|exists None; rewrite Hl in Hget; split_and!; try done; by apply Hunf].
  destruct Hl as (ty & Hl & Hty). rewrite Hl in Hget. destruct (Hshow a ty (ts_fin ts) Hty) as (x & Hx & Hsh); [by destruct Hof as [[_ ?] _]|].
  exists x. split; [done|]. split; [|done]. apply Hunf. rewrite Hget. destruct Hty as [[_ ->]|(o1 & p & v & r & i & _ & _ & _ & _ & _ & _ & ->)].
  - simpl in Hx. by injection Hx as <-.
  - cbn [tpa_to_acct] in Hx. by rewrite Hx.
Qed.
Print Assumptions C92_token_reads_show_ledger.

(** Mints and multisigs kept without loss. *)
Definition kept_clean_mint (E : ext) (a : acct) (ty : tpa) : Prop := exists p r, live_with E a p (pack_mint r) /\ smint_ok r /\ ty = TPMint (of_spl_mint p a r None).
Lemma clean_mint_kinv E X l L ts pk : t_orderly E l L -> ops_ok l -> ts_run E X ts_empty l = Done ts -> ts_ctr ts <= 2 ^ 32 ->
  (forall o a, o ∈ l -> op_acct o = Some a -> d_pubkey a = pk -> exists p v, live_with E a p v /\ clean_mint v) -> kinv pk (kept_clean_mint E) L ts (ts_log E X ts_empty l).*1.
Proof.
  intros Ho Hok Hr Hc Hcm. eapply orderly_kinv; try done. intros l1 o l2 a L1 ts1 ts2 -> Ha Hk _ _ _ _ _ _. destruct (Hcm o a) as (p & v & Hl & r & Hro & ->); [set_solver|done|done|].
  unfold accepted. rewrite (owned_token _ _ (live_owned _ _ _ _ Hl)), (type_mint _ _ _ _ _ _ _ Hl (unpack_pack_mint r Hro)). eexists. split; [done|]. by exists p, r.
Qed.
Lemma mint_shown E mints a ty slot : kept_clean_mint E a ty -> exists x, tpa_to_acct ty slot 0 mints = Done x /\ shown E a slot x.
Proof.
  intros (p & r & Hl & Hro & ->). cbn [tpa_to_acct]. rewrite mint_back by apply Hl. eexists. split; [done|]. right. split; [by eapply live_open|].
  eexists. split; [done|]. simpl. split_and!; try done. by rewrite (lw_data _ _ _ _ Hl).
Qed.
Definition kept_multi (E : ext) (a : acct) (ty : tpa) : Prop :=
  exists p r, live_with E a p (pack_multisig r) /\ sms_ok r /\ (exists s k, ms_signers r = s ++ replicate k 0 /\ 0 ∉ s) /\ ty = TPMulti (of_spl_multisig p a r) (d_pubkey a).
Lemma multi_kinv E X l L ts pk : t_orderly E l L -> ops_ok l -> ts_run E X ts_empty l = Done ts -> ts_ctr ts <= 2 ^ 32 ->
  (forall o a, o ∈ l -> op_acct o = Some a -> d_pubkey a = pk -> exists p v, live_with E a p v /\ clean_multisig v) -> kinv pk (kept_multi E) L ts (ts_log E X ts_empty l).*1.
Proof.
  intros Ho Hok Hr Hc Hcm. eapply orderly_kinv; try done. intros l1 o l2 a L1 ts1 ts2 -> Ha Hk _ _ _ _ _ _. destruct (Hcm o a) as (p & v & Hl & r & s & k & Hro & -> & Hs & Hz); [set_solver|done|done|].
  unfold accepted. rewrite (owned_token _ _ (live_owned _ _ _ _ Hl)), (type_multisig _ _ _ _ _ _ _ Hl (unpack_pack_multisig r Hro)). eexists. split; [done|]. exists p, r. split_and!; eauto.
Qed.
Lemma multi_shown E mints a ty slot : kept_multi E a ty -> exists x, tpa_to_acct ty slot 0 mints = Done x /\ shown E a slot x.
Proof.
  intros (p & r & Hl & Hro & (s & k & Hs & Hz) & ->). cbn [tpa_to_acct]. rewrite multisig_back by first [apply Hl|apply Hro]. cbn [mbind res_bind]. eexists. split; [done|]. right. split; [by eapply live_open|].
  eexists. split; [done|]. simpl. split_and!; try done. rewrite (lw_data _ _ _ _ Hl), Hs, compact_id, <- Hs by done. by destruct r.
Qed.

(** Mints that are only delivered open, one version of which is finalized. *)
Theorem C92_mint_reads_show_ledger E X l L ts pk c : t_orderly E l L -> ops_ok l -> ts_run E X ts_empty l = Done ts -> ts_ctr ts <= 2 ^ 32 ->
  (forall o a, o ∈ l -> op_acct o = Some a -> d_pubkey a = pk -> exists p v, live_with E a p v /\ clean_mint v) -> (exists m, tcounts L Finalized m /\ d_pubkey m = pk) ->
  exists o x, in_tledger L pk c o /\ ts_get ts pk c = Done (ROk x) /\ answers E L o x.
Proof.
  intros Ho Hok Hr Hc Hcm Hm. destruct (orderly_run E X l L ts Ho Hok Hr Hc) as (I1 & I2 & I3 & I4).
  pose proof (clean_mint_kinv E X l L ts pk Ho Hok Hr Hc Hcm) as Hkv.
  assert (forall a ty slot, kept_clean_mint E a ty -> d_pubkey a = pk -> exists x, tpa_to_acct ty slot 0 (ts_mints ts) = Done x /\ shown E a slot x) as Hshow by (intros a ty slot H _; by apply mint_shown).
  eapply reads_show; try done. destruct Hkv as [_ _ (o & Hof & Hl) Hlog]. destruct o as [a|]; [|destruct Hm as (m & Hm & Hmk); by destruct (Hof m Hm)].
  destruct Hl as (ty & Hl & Hty). destruct (Hshow a ty (ts_fin ts) Hty) as (x & Hx & Hsh); [by destruct Hof as [[_ ?] _]|]. exists (Some a), x. split; [done|]. split; [|done].
  destruct Hty as (p & r & Hlv & Hro & ->). simpl in Hx. injection Hx as <-.
  assert (forall z, z ∈ (ts_log E X ts_empty l).*1 -> tpa_pubkey z = pk -> exists m, z = TPMint m) as Hk.
  { intros z Hz Hzk. destruct (Hlog z Hz Hzk) as (b & p' & r' & _ & _ & ->). by eexists. }
  pose proof (C46_mint E X l ts pk (of_spl_mint p a r None) Hr Hok Hc) as Hget. rewrite (mint_last _ _ Hk), Hl in Hget. specialize (Hget eq_refl).
  simpl in Hget. destruct (get_fin ts pk) as [y|]; cbn [mbind res_bind] in Hget.
  - assert (multi_state (ts_log E X ts_empty l).*1 pk = None) as Hms by (apply multi_state_none; intros m' Hm'; by destruct (Hk _ Hm' eq_refl)). specialize (Hget Hms). by injection Hget as ->.
  - assert (multi_state (ts_log E X ts_empty l).*1 pk = None) as Hms by (apply multi_state_none; intros m' Hm'; by destruct (Hk _ Hm' eq_refl)). by specialize (Hget Hms).
Qed.
Print Assumptions C92_mint_reads_show_ledger.

(** Multisigs that are only delivered open and whose key is no other account's mint. *)
Theorem C92_multisig_reads_show_ledger E X l L ts pk c : t_orderly E l L -> ops_ok l -> ts_run E X ts_empty l = Done ts -> ts_ctr ts <= 2 ^ 32 ->
  (forall o a, o ∈ l -> op_acct o = Some a -> d_pubkey a = pk -> exists p v, live_with E a p v /\ clean_multisig v) ->
  (forall o, o ∈ l -> ~ op_names E o pk /\ ~ op_collides o pk) ->
  exists o x, in_tledger L pk c o /\ ts_get ts pk c = Done (ROk x) /\ answers E L o x.
Proof.
  intros Ho Hok Hr Hc Hcm Hoth. destruct (orderly_run E X l L ts Ho Hok Hr Hc) as (I1 & I2 & I3 & I4).
  pose proof (multi_kinv E X l L ts pk Ho Hok Hr Hc Hcm) as Hkv.
  assert (forall a ty slot, kept_multi E a ty -> d_pubkey a = pk -> exists x, tpa_to_acct ty slot 0 (ts_mints ts) = Done x /\ shown E a slot x) as Hshow by (intros a ty slot H _; by apply multi_shown).
  eapply reads_show; try done. destruct Hkv as [_ _ (o & Hof & Hl) Hlog].
  assert (forall z, z ∈ (ts_log E X ts_empty l).*1 -> tpa_pubkey z = pk -> exists m, z = TPMulti m pk) as Hk.
  { intros z Hz Hzk. destruct (Hlog z Hz Hzk) as (b & p' & r' & _ & _ & _ & ->). simpl in Hzk. rewrite Hzk. by eexists. }
  destruct o as [a|].
  - destruct Hl as (ty & Hl & Hty). destruct (Hshow a ty (ts_fin ts) Hty) as (x & Hx & Hsh); [by destruct Hof as [[_ ?] _]|]. exists (Some a), x. split; [done|]. split; [|done].
    assert (d_pubkey a = pk) as Hpk by (by destruct Hof as [[_ ?] _]).
    destruct Hty as (p & r & Hlv & Hro & _ & ->). assert (multi_state (ts_log E X ts_empty l).*1 pk = Some (of_spl_multisig p a r)) as Hms.
    { rewrite (multi_last _ _ Hk), Hl. done. }
    destruct (C46_multisig E X l ts pk _ Hr Hok Hc Hms) as (b & Hb & Hget). simpl in Hget. destruct (get_fin ts pk) as [y|]; [|done]. cbn [mbind res_bind] in Hget. injection Hget as ->.
    cbn [tpa_to_acct] in Hx. rewrite Hpk, Hb in Hx. cbn [mbind res_bind] in Hx. by injection Hx as <-.
  - exists None, None. split; [done|]. split; [|done].
    assert (forall z, z ∈ (ts_log E X ts_empty l).*1 -> tpa_pubkey z <> pk) as Hnone.
    { intros z Hz Hzk. unfold last_of in Hl. apply last_None in Hl. assert (z ∈ filter (fun x => tpa_pubkey x = pk) (ts_log E X ts_empty l).*1) as Hf by (by apply elem_of_list_filter).
      rewrite Hl in Hf. by apply elem_of_nil in Hf. }
    assert (multi_state (ts_log E X ts_empty l).*1 pk = None) as Hms by (apply multi_state_none; intros m Hm; by apply Hnone in Hm).
    assert (tok_state (ts_log E X ts_empty l).*1 pk = None) as Hts by (by apply (tok_state_app [])).
    assert (not_mint E l pk) as Hnm.
    { intros o Hin. split; [by apply Hoth|]. intros (a & v & Ha & Hak & Hv & [m Hm]). destruct (Hcm o a Hin Ha Hak) as (p & w & Hlv & r & s & k & Hro & -> & _).
      rewrite (lw_data _ _ _ _ Hlv) in Hv. injection Hv as <-. pose proof (unpack_length _ _ _ _ Hm). pose proof (unpack_length _ _ _ _ (unpack_pack_multisig r Hro)). congruence. }
    pose proof (C46_token_partial E X l ts pk Hr Hok Hc Hnm (fun o Hin => proj2 (Hoth o Hin)) Hms) as Hget. rewrite Hts in Hget. simpl in Hget.
    destruct (get_fin ts pk) as [y|]; [|done]. cbn [mbind res_bind] in Hget. by injection Hget as ->.
Qed.
Print Assumptions C92_multisig_reads_show_ledger.

(** ** Examples *)
Definition ownedb (a : acct) : bool := (d_owner a =? spl_token_id) || (d_owner a =? spl_2022_id).
Definition token_writeb (a : acct) : bool :=
  ownedb a && ((d_lamports a =? 0) || match d_data a with DRaw v => bool_decide (is_Some (unpack_account v) \/ is_Some (unpack_mint v) \/ is_Some (unpack_multisig v)) | _ => false end).
Definition confb (L : tledger) (s : N) : bool := existsb (fun x => fst x =? s) (tl_conf L).
Definition rootb (L : tledger) (s : N) : bool := match last (tl_conf L) with Some (_, r) => r =? s | None => false end.
Definition touchedb (L : tledger) (s : N) : bool := bool_decide (s ∈ tl_announced L) || existsb (fun a => d_slot a =? s) (tl_writes L).
Definition seenb (L : tledger) (s : N) : bool := bool_decide (s ∈ tl_announced L) || existsb (fun a => (d_slot a =? s) && token_writeb a) (tl_writes L).
Definition unfinalb (L : tledger) (s : N) : bool := match tl_fin L with Some f => f <? s | None => true end.
Definition olderb (a b : acct) : bool := (d_slot a <? d_slot b) || ((d_slot a =? d_slot b) && (d_wv a <=? d_wv b)).
Definition tnext (L : tledger) (o : tsop) : option tledger :=
  match o with
  | TInit a => if bool_decide (tl_writes L = []) && bool_decide (tl_conf L = []) && forallb (fun b => negb (d_pubkey b =? d_pubkey a) || olderb b a) (tl_base L)
      then Some (TLedger (tl_base L ++ [a]) [] (tl_announced L) [] (tl_fin L)) else None
  | TUpdate a Processed => if (0 <? d_slot a) && negb (confb L (d_slot a)) && negb (rootb L (d_slot a)) && forallb (fun b => negb (d_pubkey b =? d_pubkey a) || (d_slot b <? d_slot a)) (tl_base L)
      then Some (TLedger (tl_base L) (tl_writes L ++ [a]) (tl_announced L) (tl_conf L) (tl_fin L)) else None
  | TSlot ord si Processed => if (si_parent si <? si_slot si) && negb (confb L (si_slot si)) && negb (rootb L (si_slot si))
      then Some (TLedger (tl_base L) (tl_writes L) ({[si_slot si]} ∪ tl_announced L) (tl_conf L) (tl_fin L)) else None
  | TSlot ord si Confirmed =>
      if (si_parent si <? si_slot si) && seenb L (si_slot si) && match tl_conf L with [] => negb (touchedb L (si_parent si)) | (t, _) :: _ => si_parent si =? t end
      then Some (TLedger (tl_base L) (tl_writes L) (tl_announced L) ((si_slot si, si_parent si) :: tl_conf L) (tl_fin L)) else None
  | TSlot ord si Finalized => if bool_decide ((si_slot si, si_parent si) ∈ tl_conf L) && unfinalb L (si_slot si)
      then Some (TLedger (tl_base L) (tl_writes L) (tl_announced L) (tl_conf L) (Some (si_slot si))) else None
  | _ => None
  end.
Lemma confb_spec L s : confb L s = false -> ~ is_confirmed L s.
Proof. intros H [p Hp]. assert (confb L s = true); [|congruence]. apply existsb_exists. exists (s, p). split; [by apply elem_of_list_In|by apply N.eqb_eq]. Qed.
Lemma rootb_spec L s : rootb L s = false -> ~ is_root L s.
Proof. unfold rootb. intros H [t Ht]. rewrite Ht in H. by apply N.eqb_neq in H. Qed.
Lemma token_writeb_spec a : token_writeb a = true -> token_write E0 a.
Proof.
  unfold token_writeb. intros [Ho H]%andb_true_iff. assert (token_owned a) as How. { apply orb_true_iff in Ho as [H1|H1]; [left|right]; by apply N.eqb_eq. }
  split; [done|]. destruct (N.eqb_spec (d_lamports a) 0) as [|Hl]; [by left|]. right. simpl in H. destruct (d_data a) as [v|b n|b n] eqn:Hd; [|done..]. apply bool_decide_eq_true in H.
  exists (if d_owner a =? spl_token_id then TokenP else Token2022P), v. split; [|done]. constructor; [done| |by rewrite Hd|by rewrite Hd].
  destruct (N.eqb_spec (d_owner a) spl_token_id); [done|]. by destruct How.
Qed.
Lemma seenb_spec L s : seenb L s = true -> seen E0 L s.
Proof.
  unfold seenb. intros [H|H]%orb_true_iff; [left; by apply bool_decide_eq_true in H|]. right. apply existsb_exists in H as (a & Ha & [H1 H2]%andb_true_iff).
  exists a. split; [by apply elem_of_list_In|]. split; [by apply N.eqb_eq|by apply token_writeb_spec].
Qed.
Lemma touchedb_spec L s : touchedb L s = false -> ~ touched L s.
Proof.
  unfold touchedb. intros [H1 H2]%orb_false_iff [H|(a & Ha & Hs)]; [by apply bool_decide_eq_false in H1|]. assert (existsb (fun a => d_slot a =? s) (tl_writes L) = true); [|congruence].
  apply existsb_exists. exists a. split; [by apply elem_of_list_In|by apply N.eqb_eq].
Qed.
Lemma unfinalb_spec L s : unfinalb L s = true -> unfinal L s.
Proof. unfold unfinalb. intros H f Hf. rewrite Hf in H. by apply N.ltb_lt. Qed.
Lemma tnext_event L o L' : tnext L o = Some L' -> tevent E0 L o L'.
Proof.
  destruct o as [a c|a|ord si c|p b]; [destruct c; [|done..]| |destruct c|done]; unfold tnext.
  - destruct (_ && _) eqn:H; [|done]. intros [= <-]. apply andb_true_iff in H as [[[H1 H2]%andb_true_iff H3]%andb_true_iff H4]. constructor.
    + by apply N.ltb_lt.
    + by apply confb_spec, negb_true_iff.
    + by apply rootb_spec, negb_true_iff.
    + intros b Hb Hk. rewrite forallb_forall in H4. specialize (H4 b (proj1 (elem_of_list_In _ _) Hb)). rewrite Hk, N.eqb_refl in H4. by apply N.ltb_lt.
  - destruct (_ && _) eqn:H; [|done]. intros [= <-]. apply andb_true_iff in H as [[H1 H2]%andb_true_iff H3]. apply bool_decide_eq_true in H1, H2. constructor; [done..|].
    intros b Hb Hk. rewrite forallb_forall in H3. specialize (H3 b (proj1 (elem_of_list_In _ _) Hb)). rewrite Hk, N.eqb_refl in H3. simpl in H3.
    apply orb_true_iff in H3 as [H3|[H3 H4]%andb_true_iff]; [left; by apply N.ltb_lt|right; split; [by apply N.eqb_eq|by apply N.leb_le]].
  - destruct (_ && _) eqn:H; [|done]. intros [= <-]. apply andb_true_iff in H as [[H1 H2]%andb_true_iff H3]. constructor; [by apply N.ltb_lt|by apply confb_spec, negb_true_iff|by apply rootb_spec, negb_true_iff].
  - destruct (_ && _) eqn:H; [|done]. intros [= <-]. apply andb_true_iff in H as [[H1 H2]%andb_true_iff H3]. constructor; [by apply N.ltb_lt|by apply seenb_spec|].
    destruct (tl_conf L) as [|[t u] cs]; [by apply touchedb_spec, negb_true_iff|by apply N.eqb_eq].
  - destruct (_ && _) eqn:H; [|done]. intros [= <-]. apply andb_true_iff in H as [H1 H2]. constructor; [by apply bool_decide_eq_true in H1|by apply unfinalb_spec].
Qed.
Fixpoint tledger_of (L : tledger) (l : list tsop) : option tledger := match l with [] => Some L | o :: l' => match tnext L o with Some L' => tledger_of L' l' | None => None end end.
Lemma tledger_of_orderly l L : tledger_of no_tledger l = Some L -> t_orderly E0 l L.
Proof.
  assert (forall l0 L0 l, t_orderly E0 l0 L0 -> tledger_of L0 l = Some L -> t_orderly E0 (l0 ++ l) L) as H; [|apply (H [] no_tledger l); constructor].
  intros l0 L0 l1. revert l0 L0. induction l1 as [|o l1 IH]; intros l0 L0 H0; simpl; [intros [= <-]; by rewrite app_nil_r|].
  destruct (tnext L0 o) as [L1|] eqn:Hn; [|done]. apply tnext_event in Hn. intros Hl.
  replace (l0 ++ o :: l1) with ((l0 ++ [o]) ++ l1) by (by rewrite <- app_assoc). eapply IH; [|done]. by econstructor.
Qed.
Definition tledger_at (l : list tsop) : tledger := match tledger_of no_tledger l with Some L => L | None => no_tledger end.
Lemma tledger_at_orderly l : bool_decide (is_Some (tledger_of no_tledger l)) = true -> t_orderly E0 l (tledger_at l).
Proof. intros [L HL]%bool_decide_eq_true. unfold tledger_at. rewrite HL. by apply tledger_of_orderly. Qed.
(** A stream has one ledger. *)
Lemma not_next L s p t : tl_ok L -> p < s -> is_confirmed L s -> match tl_conf L with [] => t | (t, _) :: _ => p = t end -> False.
Proof.
  intros Hok Hlt Hc Hm. destruct (tl_conf L) as [|[t' u] cs] eqn:Hcs; [destruct Hc as [q Hq]; rewrite Hcs in Hq; by apply elem_of_nil in Hq|].
  assert (s <= t'); [|lia]. apply (confirmed_head L t' u Hok); [by rewrite Hcs|done].
Qed.
Lemma tevent_fun E L o L1 L2 : tl_ok L -> tevent E L o L1 -> tevent E L o L2 -> L1 = L2.
Proof. intros Hok H1 H2. destruct H1; inversion H2; subst; try done; exfalso; eauto using not_next. Qed.
Lemma t_orderly_fun E l L1 L2 : t_orderly E l L1 -> t_orderly E l L2 -> L1 = L2.
Proof.
  intros H. revert L2. induction H as [|l L o L' Ho IH Hev]; intros L2 H2; inversion H2 as [|l' L0 o' L0' Ho' Hev' He]; subst; try done.
  - by destruct l'.
  - by destruct l.
  - apply app_inj_tail in He as [-> ->]. apply IH in Ho' as <-. eapply tevent_fun; [|done..]. by eapply orderly_tl_ok.
Qed.

(** A mint and a token account are loaded; the account changes in slots 10 and 11, in the abandoned slot 12 and in slot 13, where it is closed (it then
    belongs to the system program); slots 10, 11 and 13 follow each other, 11 is finalized, 13 confirmed. *)
Definition tl_hist : list tsop :=
  [TInit (mintd 1001 50 1 1); TInit (tokd 77 1001 1002 4 5 1); TSlot ord0 (SlotInfo 10 9 0) Processed; TUpdate (tokd 77 1001 1002 5 10 2) Processed; TUpdate (tokd 77 1001 1002 6 10 1) Processed;
   TSlot ord0 (SlotInfo 10 9 0) Confirmed; TUpdate (tokd 77 1001 1002 7 11 3) Processed; TUpdate (tokd 77 1001 1002 8 12 4) Processed; TSlot ord0 (SlotInfo 11 10 0) Confirmed;
   TSlot ord0 (SlotInfo 10 9 0) Finalized].
Definition tl_hist2 : list tsop := tl_hist ++
  [TUpdate (tokd 78 1001 1002 9 13 5) Processed; TUpdate (TokenStoreProps.closed 77 13 6) Processed; TSlot ord0 (SlotInfo 13 11 0) Confirmed].
Definition given (l : list tsop) : list acct := omap op_acct l.
Lemma in_given l o a : o ∈ l -> op_acct o = Some a -> a ∈ given l.
Proof. intros Ho Ha. apply elem_of_list_omap. eauto. Qed.
Lemma tokd_live pk mint owner amount slot wv : live_with E0 (tokd pk mint owner amount slot wv) TokenP (pack_account (SplAccount mint owner amount None Init None 0 None)).
Proof. constructor; done. Qed.
Lemma tokd_clean mint owner amount : mint < 2 ^ 256 -> owner < 2 ^ 256 -> amount < 2 ^ 64 -> sa_ok (SplAccount mint owner amount None Init None 0 None).
Proof. intros H1 H2 H3. repeat split; try done; intros p H; simpl in H; done. Qed.
Lemma mintd_live pk supply slot wv : live_with E0 (mintd pk supply slot wv) TokenP (pack_mint (SplMint (Some 5) supply 6 true None)).
Proof. constructor; done. Qed.
Lemma mintd_clean supply : supply < 2 ^ 64 -> smint_ok (SplMint (Some 5) supply 6 true None).
Proof. intros H1. repeat split; try done; intros p H; simpl in H; try done. by injection H as <-. Qed.
(** The accounts of such streams. *)
Inductive plain_acct : acct -> Prop :=
| pa_tok pk mint owner amount slot wv : mint < 2 ^ 256 -> owner < 2 ^ 256 -> amount < 2 ^ 64 -> plain_acct (tokd pk mint owner amount slot wv)
| pa_mint pk supply slot wv : supply < 2 ^ 64 -> plain_acct (mintd pk supply slot wv)
| pa_closed pk slot wv : plain_acct (TokenStoreProps.closed pk slot wv).
Lemma tokd_unpack mint owner amount : mint < 2 ^ 256 -> owner < 2 ^ 256 -> amount < 2 ^ 64 ->
  let v := pack_account (SplAccount mint owner amount None Init None 0 None) in unpack_account v = Some (SplAccount mint owner amount None Init None 0 None) /\ unpack_mint v = None /\ unpack_multisig v = None.
Proof.
  intros H1 H2 H3 v. pose proof (unpack_pack_account _ (tokd_clean _ _ _ H1 H2 H3)) as Hu. split; [done|]. pose proof (unpack_length _ _ _ _ Hu) as Hl.
  split; [destruct (unpack_mint v) eqn:Hx|destruct (unpack_multisig v) eqn:Hx]; try done; apply unpack_length in Hx; unfold v in Hx; congruence.
Qed.
Lemma mintd_unpack supply : supply < 2 ^ 64 ->
  let v := pack_mint (SplMint (Some 5) supply 6 true None) in unpack_mint v = Some (SplMint (Some 5) supply 6 true None) /\ unpack_account v = None /\ unpack_multisig v = None.
Proof.
  intros H1 v. pose proof (unpack_pack_mint _ (mintd_clean _ H1)) as Hu. split; [done|]. pose proof (unpack_length _ _ _ _ Hu) as Hl.
  split; [destruct (unpack_account v) eqn:Hx|destruct (unpack_multisig v) eqn:Hx]; try done; apply unpack_length in Hx; unfold v in Hx; congruence.
Qed.
Definition mint_used (a : acct) : option pubkey := match d_data a with DRaw v => sa_mint <$> unpack_account v | _ => None end.
Definition is_mintb (a : acct) : bool := match d_data a with DRaw v => bool_decide (is_Some (unpack_mint v)) | _ => false end.
Definition first4b (a b : pubkey) : bool := bool_decide (take 4 (le 32 a) = take 4 (le 32 b)).
Definition key_check (l : list tsop) (pk : pubkey) : bool :=
  forallb (fun a => bool_decide (mint_used a <> Some pk) && negb ((d_pubkey a =? pk) && is_mintb a) && ((d_pubkey a =? pk) || negb (first4b (d_pubkey a) pk)) &&
    match mint_used a with Some m => negb (d_pubkey a =? pk) || forallb (fun b => negb (d_pubkey b =? m) || (is_mintb b && negb (d_lamports b =? 0))) (given l) | None => true end) (given l).
Lemma plain_raw a : plain_acct a -> exists v, d_data a = DRaw v.
Proof. intros []; by eexists. Qed.
Lemma key_checked l pk : Forall plain_acct (given l) -> key_check l pk = true ->
  (forall o a, o ∈ l -> op_acct o = Some a -> d_pubkey a = pk -> closed a \/ exists p v r, live_with E0 a p v /\ clean_token v /\ unpack_account v = Some r) /\
  (forall o, o ∈ l -> ~ op_names E0 o pk /\ ~ op_mint E0 o pk) /\ (forall o, o ∈ l -> ~ op_collides o pk) /\
  (forall o a p v r, o ∈ l -> op_acct o = Some a -> d_pubkey a = pk -> live_with E0 a p v -> unpack_account v = Some r ->
     forall o' b, o' ∈ l -> op_acct o' = Some b -> d_pubkey b = sa_mint r -> exists q w, live_with E0 b q w /\ is_Some (unpack_mint w)).
Proof.
  intros Hp Hk. unfold key_check in Hk. rewrite forallb_forall in Hk. rewrite Forall_forall in Hp.
  assert (forall o a, o ∈ l -> op_acct o = Some a -> plain_acct a /\ mint_used a <> Some pk /\ ~ (d_pubkey a = pk /\ is_mintb a = true) /\ (d_pubkey a = pk \/ first4b (d_pubkey a) pk = false) /\
    (d_pubkey a = pk -> forall m, mint_used a = Some m -> forall b, b ∈ given l -> d_pubkey b = m -> is_mintb b = true)) as Ha.
  { intros o a Ho Hoa. pose proof (in_given l o a Ho Hoa) as Hg. split; [by apply Hp|]. specialize (Hk a (proj1 (elem_of_list_In _ _) Hg)).
    apply andb_true_iff in Hk as [[[H1 H2]%andb_true_iff H3]%andb_true_iff H4]. apply bool_decide_eq_true in H1. split; [done|]. split.
    { intros [Hx Hy]. rewrite Hx, N.eqb_refl, Hy in H2. done. }
    split. { apply orb_true_iff in H3 as [H3|H3]; [left; by apply N.eqb_eq|right; by apply negb_true_iff]. }
    intros Hx m Hm b Hb Hbm. rewrite Hm, Hx, N.eqb_refl in H4. simpl in H4. rewrite forallb_forall in H4. specialize (H4 b (proj1 (elem_of_list_In _ _) Hb)).
    rewrite Hbm, N.eqb_refl in H4. simpl in H4. by apply andb_true_iff in H4 as [? _]. }
  clear Hk. split_and!.
  - intros o a Ho Hoa Hak. destruct (Ha o a Ho Hoa) as (Hpl & _ & Hm & _). destruct Hpl as [k mint owner amount slot wv H1 H2 H3|k supply slot wv H1|k slot wv].
    + right. exists TokenP, (pack_account (SplAccount mint owner amount None Init None 0 None)), (SplAccount mint owner amount None Init None 0 None). split; [apply tokd_live|].
      split; [|by apply tokd_unpack]. exists (SplAccount mint owner amount None Init None 0 None). split; [by apply tokd_clean|]. split; reflexivity.
    + destruct Hm. split; [done|]. by vm_compute.
    + left. by left.
  - intros o Ho. split.
    + intros (a & v & r & Hoa & Hv & Hu & Hr). destruct (Ha o a Ho Hoa) as (Hpl & Hn & _). destruct (plain_raw a Hpl) as [w Hw]. apply Hn. unfold mint_used. rewrite Hw in Hv |- *.
      simpl in Hv. injection Hv as ->. rewrite Hu. simpl. by rewrite Hr.
    + intros (a & v & Hoa & Hak & Hv & Hu). destruct (Ha o a Ho Hoa) as (Hpl & _ & Hn & _). destruct (plain_raw a Hpl) as [w Hw]. apply Hn. split; [done|]. unfold is_mintb. rewrite Hw in Hv |- *.
      simpl in Hv. injection Hv as ->. by apply bool_decide_eq_true.
  - intros o Ho (a & Hoa & Hak & Hf). destruct (Ha o a Ho Hoa) as (_ & _ & _ & [?|Hn] & _); [done|]. by apply bool_decide_eq_false in Hn.
  - intros o a p v r Ho Hoa Hak Hl Hu o' b Ho' Hob Hbm. destruct (Ha o a Ho Hoa) as (Hpl & _ & _ & _ & Hm). specialize (Hm Hak (sa_mint r)).
    assert (is_mintb b = true) as Hib.
    { apply Hm; [|by eapply in_given|done]. destruct (plain_raw a Hpl) as [w Hw]. unfold mint_used. rewrite Hw. pose proof (lw_data _ _ _ _ Hl) as Hv. rewrite Hw in Hv. simpl in Hv. injection Hv as ->. by rewrite Hu. }
    destruct (Ha o' b Ho' Hob) as (Hpb & _). destruct Hpb as [k mint owner amount slot wv H1 H2 H3|k supply slot wv H1|k slot wv].
    + exfalso. unfold is_mintb in Hib. vm_compute in Hib. done.
    + exists TokenP, (pack_mint (SplMint (Some 5) supply 6 true None)). split; [apply mintd_live|]. destruct (mintd_unpack supply H1) as (Hx & _). rewrite Hx. by eexists.
    + exfalso. unfold is_mintb in Hib. vm_compute in Hib. done.
Qed.

(** The account of [tl_hist2] leaves the token programs once; slot 10 is finalized then. *)
Lemma tl_hist2_leaves l1 o l2 a L : tl_hist2 = l1 ++ o :: l2 -> op_acct o = Some a -> d_pubkey a = 77 -> ~ token_owned a -> t_orderly E0 l1 L ->
  forall x, in_tledger L 77 Finalized x -> exists y, x = Some y /\ ~ closed y.
Proof.
  intros Hl Ha Hk Hn Ho. assert (l1 = take 11 tl_hist2) as ->.
  { assert (forallb (fun i => match tl_hist2 !! i with Some o => match op_acct o with Some a => negb (d_pubkey a =? 77) || ownedb a || (i =? 11)%nat | None => true end | None => true end) (seq 0 13) = true) as Hc by (by vm_compute).
    assert (tl_hist2 !! length l1 = Some o) as Hi by (rewrite Hl; by rewrite list_lookup_middle). assert (length l1 < 13)%nat as Hlt by (apply lookup_lt_Some in Hi; exact Hi).
    rewrite forallb_forall in Hc. specialize (Hc (length l1)). rewrite Hi, Ha, Hk in Hc. assert (ownedb a = false) as Hno.
    { apply not_true_is_false. intros H. apply Hn. apply orb_true_iff in H as [H|H]; [left|right]; by apply N.eqb_eq. }
    rewrite Hno in Hc. assert (length l1 = 11%nat) as Hlen by (apply Nat.eqb_eq, Hc, in_seq; lia). rewrite Hl, <- Hlen. by rewrite take_app. }
  assert (L = tledger_at (take 11 tl_hist2)) as ->. { eapply t_orderly_fun; [done|]. apply tledger_at_orderly. by vm_compute. }
  clear Ho Hl Ha Hk Hn. intros x Hx.
  assert (tl_base (tledger_at (take 11 tl_hist2)) = [mintd 1001 50 1 1; tokd 77 1001 1002 4 5 1]) as Hb by (vm_compute; reflexivity).
  assert (tl_writes (tledger_at (take 11 tl_hist2)) = [tokd 77 1001 1002 5 10 2; tokd 77 1001 1002 6 10 1; tokd 77 1001 1002 7 11 3; tokd 77 1001 1002 8 12 4; tokd 78 1001 1002 9 13 5]) as Hw by (vm_compute; reflexivity).
  assert (tcounts (tledger_at (take 11 tl_hist2)) Finalized (tokd 77 1001 1002 5 10 2)) as H1.
  { right. assert (tl_conf (tledger_at (take 11 tl_hist2)) = [(11, 10); (10, 9)]) as Hc by (by vm_compute). split; [rewrite Hw; left|].
    split; [exists 9; rewrite Hc; right; left|]. exists 10. by split; [vm_compute|]. }
  destruct x as [y|]; [|destruct (Hx _ H1 eq_refl)]. exists y. split; [done|]. destruct Hx as [[Hy Hyk] _]. intros Hcl.
  assert (forall z, z ∈ [mintd 1001 50 1 1; tokd 77 1001 1002 4 5 1; tokd 77 1001 1002 5 10 2; tokd 77 1001 1002 6 10 1; tokd 77 1001 1002 7 11 3; tokd 77 1001 1002 8 12 4; tokd 78 1001 1002 9 13 5] -> ~ closed z) as Hopen.
  { intros z Hz Hc. rewrite !elem_of_cons, elem_of_nil in Hz. destruct_or! Hz; subst z; (destruct Hc as [|Hc]; [done|]); apply Hc; by left. }
  revert Hcl. apply Hopen. change (y ∈ [mintd 1001 50 1 1; tokd 77 1001 1002 4 5 1] ++ [tokd 77 1001 1002 5 10 2; tokd 77 1001 1002 6 10 1; tokd 77 1001 1002 7 11 3; tokd 77 1001 1002 8 12 4; tokd 78 1001 1002 9 13 5]).
  apply elem_of_app. destruct Hy as [Hy|[Hy _]]; [left; by rewrite Hb in Hy|right; by rewrite Hw in Hy].
Qed.
Lemma tl_hist2_plain : Forall plain_acct (given tl_hist2).
Proof. repeat constructor. Qed.
Lemma hist2_key : token_account_key E0 tl_hist2 77 /\ mints_known E0 tl_hist2 (tledger_at tl_hist2) 77.
Proof.
  destruct (key_checked tl_hist2 77 tl_hist2_plain) as (H1 & H2 & H3 & H4); [by vm_compute|]. split.
  - split; [by split|]. apply tl_hist2_leaves.
  - intros o a p v r Ho Ha Hk Hl Hu. split; [by eapply H4|]. exists (mintd 1001 50 1 1). assert (tl_base (tledger_at tl_hist2) = [mintd 1001 50 1 1; tokd 77 1001 1002 4 5 1]) as Hb by (vm_compute; reflexivity). split; [left; rewrite Hb; left|].
    assert (mint_used a = Some (sa_mint r)) as Hm.
    { destruct (plain_raw a) as [w Hw]; [pose proof tl_hist2_plain as Hp; rewrite Forall_forall in Hp; apply Hp; by eapply in_given|].
      unfold mint_used. rewrite Hw. pose proof (lw_data _ _ _ _ Hl) as Hv. rewrite Hw in Hv. simpl in Hv. injection Hv as ->. by rewrite Hu. }
    assert (forallb (fun b => bool_decide (mint_used b = Some 1001 \/ mint_used b = None)) (given tl_hist2) = true) as Hall by (by vm_compute).
    rewrite forallb_forall in Hall. specialize (Hall a (proj1 (elem_of_list_In _ _) (in_given _ _ _ Ho Ha))). apply bool_decide_eq_true in Hall. destruct Hall; [simpl; congruence|congruence].
Qed.
Example C92_token_reads_show_ledger_example :
  t_orderly E0 tl_hist2 (tledger_at tl_hist2) /\ ops_ok tl_hist2 /\ ts_run E0 X0 ts_empty tl_hist2 = Done (final tl_hist2) /\ ts_ctr (final tl_hist2) <= 2 ^ 32 /\
  token_account_key E0 tl_hist2 77 /\ mints_known E0 tl_hist2 (tledger_at tl_hist2) 77 /\
  amount_of (ts_get (final tl_hist) 77 Processed) = Some 8 /\ amount_of (ts_get (final tl_hist) 77 Confirmed) = Some 7 /\ amount_of (ts_get (final tl_hist) 77 Finalized) = Some 5 /\
  ts_get (final tl_hist2) 77 Processed = Done (ROk None) /\ ts_get (final tl_hist2) 77 Confirmed = Done (ROk None) /\ amount_of (ts_get (final tl_hist2) 77 Finalized) = Some 5.
Proof.
  split; [apply tledger_at_orderly; by vm_compute|]. split; [repeat constructor; simpl; try done; intros m; done|]. split; [apply final_run; by vm_compute|]. split; [by vm_compute|].
  destruct hist2_key as [H1 H2]. split; [done|]. split; [done|]. split_and!; by vm_compute.
Qed.

