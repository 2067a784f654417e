(** Reads and queries of a loaded snapshot, and of a store a snapshot was loaded into. *)
From Verif Require Import Base SMap DataModel BincodeModel BincodeProofs FilterModel StoreModel TokenModel TokenProofs SplModel SplProofs TokenUtilsModel
  TokenUtilsProofs TokenPendModel TokenPendSpec TokenPendProofs TokenStoreModel TokenStoreSpec TokenStoreProofs TokenStoreViews TokenStoreQuery TokenPendProps TokenStoreSafe Lz4Model TokenSnapSpec TokenSnapProofs TokenSnapLoad.
#[local] Arguments le : simpl never.
#[local] Arguments unle : simpl never.
#[local] Opaque to_bytes from_bytes peek_pubkey.

(** Histories without snapshots do not depend on the compressor. *)
Lemma run_any X X' E l : ops_ok l -> forall ts, ts_run E X ts l = ts_run E X' ts l.
Proof.
  induction 1 as [|o l Ho _ IH]; intros ts; [done|]. cbn [ts_run].
  assert (ts_step E X ts o = ts_step E X' ts o) as -> by (by destruct o). destruct (ts_step E X' ts o); [apply IH|done].
Qed.
Lemma log_any X X' E l : ops_ok l -> forall ts, ts_log E X ts l = ts_log E X' ts l.
Proof.
  induction 1 as [|o l Ho _ IH]; intros ts; [done|]. cbn [ts_log]. f_equal.
  assert (ts_step E X ts o = ts_step E X' ts o) as -> by (by destruct o). destruct (ts_step E X' ts o); [apply IH|done].
Qed.
(** Live records are where reads look for them. *)
Lemma run_live E X l ts : ts_run E X ts_empty l = Done ts -> ops_ok l -> ts_ctr ts <= 2 ^ 32 -> tidy E l ->
  (forall pk i t, at_pos (ts_table ts) pk i t -> TPToken t ∈ (ts_log E X ts_empty l).*1) /\
  forall i t, stored (ts_table ts) i t -> ta_deleted t = false -> at_pos (ts_table ts) (ta_pubkey t) i t.
Proof.
  intros H Hok Hc Htd. pose proof (log_isolated _ _ _ _ H Hok Hc Htd) as Hiso. set (LL := (ts_log E X ts_empty l).*1) in *.
  apply (run_ind E X (fun ts _ => (forall pk i t, at_pos (ts_table ts) pk i t -> TPToken t ∈ LL) /\
    (forall i t, stored (ts_table ts) i t -> ta_deleted t = false -> at_pos (ts_table ts) (ta_pubkey t) i t)) (fun _ => True) (fun x => x ∈ LL)) with (l := l) (ts := ts_empty) (L := []); try done.
  - intros ts0 o ts1 L _ _ _ [H1 H2] Hs. by rewrite (sf_table _ _ _ _ Hs).
  - intros ts0 a ts1 L Hi Hc0 Ha HL [Hl Hlv] H1. destruct a as [t|m|m q|q]; simpl in H1.
    + pose proof (tpa_ok_good _ _ Ha Hc0) as Hg. unfold add_token in H1.
      destruct (tb_save_spec _ t (ti_table _ Hi) Hg) as (tb & i & b & Hs & Htb & Hat & Hoth & _). rewrite Hs in H1. cbn [mbind res_bind] in H1. injection H1 as <-.
      assert (ts_table (if b then set_table ts0 (push_at (ta_mint t) i (ts_by_mint ts0)) (push_at (prefix4 (ta_owner t)) i (ts_by_owner ts0)) tb
        else set_table ts0 (ts_by_mint ts0) (ts_by_owner ts0) tb) = tb) as -> by (by destruct b). split.
      * intros pk j t' Ha'. destruct (decide (pk = ta_pubkey t)) as [->|Hne]; [|by eapply Hl, Hoth]. by destruct (at_pos_fun _ _ _ _ _ _ Htb Ha' Hat) as [-> ->].
      * by eapply (save_live _ _ _ _ _ (ti_table _ Hi) Hg Hs).
    + by destruct (ts_mint_ix ts0 !! ma_pubkey m); injection H1 as <-.
    + by injection H1 as <-.
    + destruct (ts_mint_ix ts0 !! q); [by injection H1 as <-|]. destruct (tb_delete _ _) as [tb|] eqn:Hd; [|done]. cbn [mbind res_bind] in H1. injection H1 as <-.
      destruct (tb_delete_spec _ q (ti_table _ Hi)) as (tb1 & Hd1 & _ & Hat & _). rewrite Hd in Hd1. injection Hd1 as <-. simpl. split.
      * intros pk j t Ha'. apply Hat in Ha' as [_ Ha']. by eapply Hl.
      * apply (delete_live _ _ _ (ti_table _ Hi) Hd Hlv). intros j t Hst' Hdl Hf. apply (Hiso q t); [done|by eapply Hl, Hlv|done].
  - by apply Forall_true.
  - by apply Forall_forall.
  - apply tinv_empty.
  - split.
    + intros pk i t (_ & _ & ixs & Hk & _). simpl in Hk. by rewrite lookup_empty in Hk.
    + intros i t [_ Hk]. simpl in Hk. by rewrite lookup_nil in Hk.
Qed.
Lemma multi_in_log L pk m : multi_state L pk = Some m -> TPMulti m pk ∈ L.
Proof.
  induction L as [|a L IH] using rev_ind; intros H; [done|]. rewrite multi_state_snoc in H. apply elem_of_app.
  destruct a as [t|m'|m' q|q]; simpl in H; try (left; by apply IH). destruct (N.eqb_spec q pk) as [->|]; [|left; by apply IH].
  injection H as ->. right. by apply elem_of_list_singleton.
Qed.
Lemma comes_multi_key E o m q : comes_from E o (TPMulti m q) -> mu_pubkey m = q.
Proof.
  intros (a & ix & ctr & ix' & ctr' & Ho & Hp & Hix & Ht).
  by apply account_type_inv in Ht as [(? & _)|[Hl (p & v & Hw & Hv & [(m' & x & Hu & ? & _)|[(m' & Hu & [= -> ->] & _)|(s & i & Hu & Hmi & ?)]])]].
Qed.

Lemma to_acct_moved t j fin mints mints' : mints' !! j = mints !! ta_mint t ->
  token_to_acct (with_mint t j) 0 0 mints' = match token_to_acct t fin 0 mints with Done o => Done (slot0 <$> o) | Panic => Panic end.
Proof.
  intros Hm. unfold token_to_acct. cbn [with_mint ta_deleted ta_mint ta_program ta_owner ta_amount ta_delegate ta_state ta_native ta_close ta_extra ta_pubkey].
  destruct (ta_deleted t); [done|]. rewrite Hm. destruct (mints !! ta_mint t) as [m|]; [|done]. done.
Qed.
Lemma multi_moved m pk fin : multisig_to_acct m pk 0 0 = match multisig_to_acct m pk fin 0 with Done a => Done (slot0 a) | Panic => Panic end.
Proof. unfold multisig_to_acct. by destruct (_ <=? _)%nat. Qed.
Lemma get_pos ts pk i t : tb_ok (ts_table ts) -> at_pos (ts_table ts) pk i t -> tb_get (ts_table ts) pk = Done (Some t).
Proof. intros Hok Ha. destruct (rep_exists _ Hok) as [m Hm]. rewrite (tb_get_spec _ _ _ Hok Hm). f_equal. apply Hm. by exists i. Qed.
Lemma get_no_pos ts pk : tb_ok (ts_table ts) -> (forall i t, ~ at_pos (ts_table ts) pk i t) -> tb_get (ts_table ts) pk = Done None.
Proof. intros Hok Hn. destruct (rep_exists _ Hok) as [m Hm]. rewrite (tb_get_spec _ _ _ Hok Hm). f_equal. by apply (rep_none _ _ _ Hm). Qed.
Lemma pos_dec ts pk : tb_ok (ts_table ts) -> (exists i t, at_pos (ts_table ts) pk i t) \/ (forall i t, ~ at_pos (ts_table ts) pk i t).
Proof.
  intros Hok. destruct (rep_exists _ Hok) as [m Hm]. destruct (m !! pk) as [t|] eqn:Hp.
  - left. apply Hm in Hp as [i Ha]. eauto.
  - right. by apply (rep_none _ _ _ Hm).
Qed.

(** ** The loaded store *)
Section reads.
Context (p : program) (ts ti : tstore) (Hi : tinv ts) (Hld : loaded p ts ti).
Lemma loaded_multi pk m : ts_multi ts !! pk = Some m -> ts_get (unix ti) pk Finalized =
  match ts_get ts pk Finalized with Done (ROk (Some a)) => Done (ROk (Some (slot0 a))) | x => x end.
Proof.
  intros Hm. simpl. unfold get_fin. cbn [unix set_ix ts_multi ts_fin]. rewrite (ld_multi _ _ _ Hld), (ld_fin _ _ _ Hld), Hm.
  rewrite (multi_moved m pk (ts_fin ts)). by destruct (multisig_to_acct m pk (ts_fin ts) 0).
Qed.
Lemma loaded_token pk i t : at_pos (ts_table ts) pk i t -> ts_multi ts !! pk = None -> ta_program t = p ->
  ts_get (unix ti) pk Finalized = match token_to_acct t (ts_fin ts) 0 (ts_mints ts) with Done o => Done (ROk (slot0 <$> o)) | Panic => Panic end.
Proof.
  intros Ha Hmu Hp. destruct (ld_to _ _ _ Hld _ _ _ Ha Hp) as (i' & j & Ha' & Hm). pose proof (ld_inv _ _ _ Hld) as Hi'.
  simpl. unfold get_fin. cbn [unix set_ix ts_multi ts_fin ts_mint_ix ts_table ts_mints]. rewrite (ld_multi _ _ _ Hld), Hmu, lookup_empty.
  rewrite (get_pos _ _ _ _ (ti_table _ Hi') Ha'). cbn [mbind res_bind]. cbn [with_mint ta_deleted]. rewrite (ti_live _ Hi _ _ _ Ha).
  rewrite (ld_fin _ _ _ Hld), (to_acct_moved t j (ts_fin ts) (ts_mints ts)) by done. by destruct (token_to_acct t _ _ _).
Qed.
Lemma loaded_other pk : ts_multi ts !! pk = None -> (forall i t, at_pos (ts_table ts) pk i t -> ta_program t <> p) -> ts_get (unix ti) pk Finalized = Done (ROk None).
Proof.
  intros Hmu Hno. pose proof (ld_inv _ _ _ Hld) as Hi'. simpl. unfold get_fin. cbn [unix set_ix ts_multi ts_fin ts_mint_ix ts_table ts_mints].
  rewrite (ld_multi _ _ _ Hld), Hmu, lookup_empty. rewrite (get_no_pos _ _ (ti_table _ Hi')); [done|].
  intros i t Ha. destruct (ld_from _ _ _ Hld _ _ _ Ha) as (i' & t0 & j & Ha0 & Hp & _). by eapply Hno.
Qed.
End reads.

(** ** Loading over what is there *)
Lemma cut_length n v a b : cut n v = Done (a, b) -> length a = n.
Proof. unfold cut. destruct (Nat.leb_spec n (length v)); [|done]. intros [= <- _]. rewrite take_length. lia. Qed.
Lemma unle_below v k : (length v <= k)%nat -> unle v < 256 ^ N.of_nat k.
Proof. intros H. eapply N.lt_le_trans; [apply unle_lt|]. apply N.pow_le_mono_r; [done|]. unfold lenN. lia. Qed.

Lemma bind_done {A B} (x : res A) (f : A -> res B) b : x ≫= f = Done b -> exists a, x = Done a /\ f a = Done b.
Proof. destruct x as [a|]; [|done]. intros H. by exists a. Qed.
#[local] Transparent from_bytes.
Lemma from_bytes_good v t : from_bytes v = Done t -> good t.
Proof.
  unfold from_bytes. intros H. apply bind_done in H as ([h o1] & Hh & H). apply cut_length in Hh. cbv zeta in H. revert H.
  assert (forall a n, unle (take n (drop a h)) < 256 ^ N.of_nat n) as Hu by (intros a n; apply unle_below; rewrite take_length; lia).
  set (sb := N.land (N.shiftr (unle (take 1 h)) 2) 3).
  intros H. apply bind_done in H as (st & _ & H).
  apply bind_done in H as ([dl o2] & Hd & H). apply bind_done in H as ([na o3] & Hn & H). apply bind_done in H as ([cl o4] & Hcl & H).
  apply bind_done in H as (ex & Hex & H). apply bind_done in H as (de & _ & H). injection H as <-. unfold good, ta_ok.
  cbn [ta_pubkey ta_owner ta_mint ta_amount ta_delegate ta_native ta_close ta_extra].
  split; [split; [apply (Hu 2%nat 32%nat)|split; [apply (Hu 34%nat 32%nat)|split; [apply (Hu 66%nat 4%nat)|split; [apply (Hu 70%nat 8%nat)|split; [|split]]]]]|].
  - intros d n ->. destruct (N.land (N.shiftr (unle (take 1 h)) 4) 1 =? 1); [|by injection Hd]. apply bind_done in Hd as ([x y] & Hx & Hd). apply cut_length in Hx. injection Hd as <- <- <-.
    split; [apply (unle_below _ 32); rewrite take_length; lia|apply (unle_below _ 8); rewrite drop_length; lia].
  - intros n ->. destruct (N.land (N.shiftr (unle (take 1 h)) 5) 1 =? 1); [|by injection Hn]. apply bind_done in Hn as ([x y] & Hx & Hn). apply cut_length in Hx. injection Hn as <- <-. apply (unle_below _ 8). lia.
  - intros n ->. destruct (N.land (N.shiftr (unle (take 1 h)) 6) 1 =? 1); [|by injection Hcl]. apply bind_done in Hcl as ([x y] & Hx & Hcl). apply cut_length in Hx. injection Hcl as <- <-. apply (unle_below _ 32). lia.
  - intros d ->. destruct (N.land (N.shiftr (unle (take 1 h)) 7) 1 =? 1); [|by injection Hex]. apply bind_done in Hex as ([x y] & Hx & Hex). apply cut_length in Hx. apply bind_done in Hex as ([x' y'] & Hx' & Hex).
    injection Hex as <-. apply cut_length in Hx'. unfold lenN. rewrite Hx', N2Nat.id. apply (unle_below _ 4). lia.
Qed.
#[local] Opaque from_bytes.
Definition same_but (ts ts' : tstore) : Prop :=
  ts_mint_ix ts' = ts_mint_ix ts /\ ts_multi ts' = ts_multi ts /\ ts_pend ts' = ts_pend ts /\ ts_conf ts' = ts_conf ts /\ ts_fin ts' = ts_fin ts /\
  ts_mints ts' = ts_mints ts /\ ts_ctr ts' = ts_ctr ts.
Lemma load_tokens_other map l : forall ts ts', tb_ok (ts_table ts) -> (forall i j, map !! i = Some j -> j < 2 ^ 32) -> load_tokens ts map l = Done ts' ->
  same_but ts ts' /\ tb_ok (ts_table ts') /\
  forall pk, (forall v t, v ∈ l -> from_bytes v = Done t -> ta_pubkey t <> pk) -> forall i t, at_pos (ts_table ts') pk i t <-> at_pos (ts_table ts) pk i t.
Proof.
  induction l as [|v l IH]; intros ts ts' Hok Hmap H; cbn [load_tokens] in H; [by injection H as <-|].
  apply bind_done in H as (t & Ht & H). apply bind_done in H as (j & Hj & H). apply bind_done in H as (t1 & H1 & H).
  destruct (map !! ta_mint t) as [j'|] eqn:Hm; [|done]. injection Hj as <-.
  assert (good (with_mint t j')) as Hg by (apply good_with; [by eapply from_bytes_good|by eapply Hmap]).
  unfold add_token in H1. destruct (tb_save_spec _ (with_mint t j') Hok Hg) as (tb & i & b & Hs & Htb & Hat & Hoth & _). rewrite Hs in H1. cbn [mbind res_bind] in H1. injection H1 as <-.
  apply IH in H as (Hsame & Hok' & Hpos); [|by destruct b|done]. split; [|split; [done|]].
  - destruct b; exact Hsame.
  - intros pk Hpk i' t'. rewrite Hpos by (intros v' t0 Hv'; apply Hpk; by right). assert (pk <> ta_pubkey t) by (intros ->; by eapply (Hpk v t); [left|done|]).
    destruct b; by apply Hoth.
Qed.
Lemma load_mints_other l : forall ts map ts' map', (forall i m, (i, m) ∈ l -> ts_mint_ix ts !! ma_pubkey m = None) -> load_mints ts map l = (ts', map') ->
  ts_mint_ix ts' = ts_mint_ix ts /\ ts_multi ts' = ts_multi ts /\ ts_pend ts' = ts_pend ts /\ ts_conf ts' = ts_conf ts /\ ts_fin ts' = ts_fin ts /\ ts_table ts' = ts_table ts /\
  (forall j, j < ts_ctr ts -> ts_mints ts' !! j = ts_mints ts !! j) /\ ts_ctr ts' = ts_ctr ts + lenN l /\
  (forall i j, map' !! i = Some j -> map !! i = Some j \/ j < ts_ctr ts').
Proof.
  induction l as [|[i m] l IH]; intros ts map ts' map' Hno H; cbn [load_mints] in H.
  - injection H as <- <-. do 6 (split; [done|]). split; [done|]. split; [change (lenN (@nil (N * mint_account))) with 0; lia|]. auto.
  - rewrite (Hno i m) in H by left. apply IH in H as (H1 & H2 & H3 & H4 & H5 & H6 & H7 & H8 & H9).
    + rewrite H1, H2, H3, H4, H5, H6. do 6 (split; [done|]). cbn [set_ix set_mints ts_ctr ts_mints] in *.
      assert (lenN ((i, m) :: l) = lenN l + 1) as -> by (unfold lenN; simpl length; lia). split; [|split; [lia|]].
      * intros j Hj. rewrite H7 by lia. apply lookup_insert_ne. lia.
      * intros k j Hk. destruct (H9 k j Hk) as [Hk'|?]; [|by right]. apply lookup_insert_Some in Hk' as [[_ <-]|[_ ?]]; [right; lia|by left].
    + intros i' m' Hin. apply (Hno i' m'). by right.
Qed.
Lemma to_acct_mints t slot wv mints mints' : (ta_deleted t = false -> mints' !! ta_mint t = mints !! ta_mint t) -> token_to_acct t slot wv mints' = token_to_acct t slot wv mints.
Proof. intros H. unfold token_to_acct. destruct (ta_deleted t); [done|]. by rewrite H. Qed.
Lemma load_other ts s ts' : tinv ts -> load_content ts s = Done ts' -> ts_ctr ts' <= 2 ^ 32 ->
  (forall i m, (i, m) ∈ sn_mints s -> ts_mint_ix ts !! ma_pubkey m = None) ->
  ts_mint_ix ts' = ts_mint_ix ts /\ ts_pend ts' = ts_pend ts /\ ts_conf ts' = ts_conf ts /\ ts_fin ts' = ts_fin ts /\
  (forall j, j < ts_ctr ts -> ts_mints ts' !! j = ts_mints ts !! j) /\
  (forall pk, (forall m, m ∈ sn_multis s -> mu_pubkey m <> pk) -> ts_multi ts' !! pk = ts_multi ts !! pk) /\
  tb_ok (ts_table ts') /\
  forall pk, (forall v t, v ∈ sn_tokens s -> from_bytes v = Done t -> ta_pubkey t <> pk) -> forall i t, at_pos (ts_table ts') pk i t <-> at_pos (ts_table ts) pk i t.
Proof.
  intros Hi H Hc Hno. unfold load_content in H. fold (put_multis ts (sn_multis s)) in H. set (t0 := put_multis ts (sn_multis s)) in *.
  pose proof (put_multis_same ts (sn_multis s)) as Hsame. fold t0 in Hsame.
  assert (ts_mint_ix t0 = ts_mint_ix ts /\ ts_ctr t0 = ts_ctr ts /\ ts_table t0 = ts_table ts /\ ts_fin t0 = ts_fin ts /\ ts_conf t0 = ts_conf ts /\ ts_pend t0 = ts_pend ts /\ ts_mints t0 = ts_mints ts)
    as (E1 & E2 & E3 & E4 & E5 & E6 & E7).
  { by rewrite <- Hsame. }
  destruct (load_mints t0 ∅ (sn_mints s)) as [t1 map] eqn:Hlm.
  destruct (load_mints_other _ _ _ _ _ ltac:(intros i m; rewrite E1; apply Hno) Hlm) as (F1 & F2 & F3 & F4 & F5 & F6 & F7 & F8 & F9).
  assert (forall ts'', same_but t1 ts'' -> ts_ctr ts'' = ts_ctr t1) as Hcs by (intros ? (_ & _ & _ & _ & _ & _ & ?); done).
  assert (ts_ctr ts' = ts_ctr t1) as Hc1.
  { clear -H. revert t1 H. induction (sn_tokens s) as [|v l IH]; intros t1 H; cbn [load_tokens] in H; [by injection H as <-|].
    apply bind_done in H as (t & _ & H). apply bind_done in H as (j & _ & H). apply bind_done in H as (t2 & H2 & H). apply IH in H. rewrite H. unfold add_token in H2.
    apply bind_done in H2 as ([[tb i] b] & _ & H2). injection H2 as <-. by destruct b. }
  apply load_tokens_other in H as ((G1 & G2 & G3 & G4 & G5 & G6 & G7) & Htb & Hpos).
  - split; [congruence|]. split; [congruence|]. split; [congruence|]. split; [congruence|]. split.
    { intros j Hj. rewrite G6, F7, E7; [done|]. by rewrite E2. }
    split; [|split; [done|]].
    + intros pk Hpk. rewrite G2, F2. unfold t0. clear -Hpk. revert ts. induction (sn_multis s) as [|m l IH]; intros ts; [done|]. simpl. unfold put_multis in IH. rewrite IH.
      * simpl. apply lookup_insert_ne. apply Hpk. left.
      * intros m' Hm'. apply Hpk. by right.
    + intros pk Hpk i t. rewrite Hpos by done. by rewrite F6, E3.
  - rewrite F6, E3. apply (ti_table _ Hi).
  - intros i j Hj. destruct (F9 i j Hj) as [Hj'|?]; [by rewrite lookup_empty in Hj'|]. lia.
Qed.
Lemma load_other_reads ts s ts' pk c : tinv ts -> load_content ts s = Done ts' -> ts_ctr ts' <= 2 ^ 32 ->
  (forall i m, (i, m) ∈ sn_mints s -> ts_mint_ix ts !! ma_pubkey m = None) ->
  (forall m, m ∈ sn_multis s -> mu_pubkey m <> pk) -> (forall v t, v ∈ sn_tokens s -> from_bytes v = Done t -> ta_pubkey t <> pk) ->
  ts_get ts' pk c = ts_get ts pk c.
Proof.
  intros Hi H Hc Hno Hmu Htk. destruct (load_other ts s ts' Hi H Hc Hno) as (E1 & E2 & E3 & E4 & E5 & E6 & Htb & Hpos). specialize (E6 pk Hmu). specialize (Hpos pk Htk).
  assert (get_fin ts' pk = get_fin ts pk) as Hfin.
  { unfold get_fin. rewrite E6, E4, E1. destruct (ts_multi ts !! pk); [done|]. destruct (ts_mint_ix ts !! pk) as [i|] eqn:Hix.
    - rewrite E5; [done|]. destruct (ti_ix _ Hi) as [_ Hlt]. by eapply Hlt.
    - destruct (pos_dec ts pk (ti_table _ Hi)) as [(i & t & Ha)|Hn].
      + rewrite (get_pos _ _ _ _ (ti_table _ Hi) Ha). rewrite (get_pos ts' pk i t Htb) by (by apply Hpos). cbn [mbind res_bind]. destruct (ta_deleted t) eqn:Hd; [done|].
        apply to_acct_mints. intros _. apply E5. destruct Ha as (Hst & _). by destruct (ti_tokens _ Hi _ _ Hst Hd).
      + rewrite (get_no_pos _ _ (ti_table _ Hi) Hn). rewrite (get_no_pos ts' pk Htb); [done|]. intros i t Ha. by eapply Hn, Hpos. }
  unfold ts_get. rewrite E2, E3, Hfin. destruct c; [| |done].
  - destruct (pd_get (ts_pend ts) [pk] Processed (ts_conf ts)) as [l|] eqn:Hl; [|done]. cbn [mbind res_bind]. destruct l as [|[[[a w] sl]|] l]; [done| |done]. cbn [head unwrap mbind res_bind].
    destruct (read_version _ _ Processed _ _ 0%nat (a, w, sl) (ti_sorted _ Hi) ltac:(discriminate) Hl eq_refl) as [q Hv]. destruct (ti_pend _ Hi _ _ _ Hv) as [Hok _]. simpl in Hok.
    destruct a as [t|m|m q'|q']; try done. cbn [tpa_to_acct]. f_equal. rewrite (to_acct_mints t sl 0 (ts_mints ts)); [done|]. intros _. apply E5. by destruct Hok as (_ & [? _] & _).
  - destruct (pd_get (ts_pend ts) [pk] Confirmed (ts_conf ts)) as [l|] eqn:Hl; [|done]. cbn [mbind res_bind]. destruct l as [|[[[a w] sl]|] l]; [done| |done]. cbn [head unwrap mbind res_bind].
    destruct (read_version _ _ Confirmed _ _ 0%nat (a, w, sl) (ti_sorted _ Hi) ltac:(discriminate) Hl eq_refl) as [q Hv]. destruct (ti_pend _ Hi _ _ _ Hv) as [Hok _]. simpl in Hok.
    destruct a as [t|m|m q'|q']; try done. cbn [tpa_to_acct]. f_equal. rewrite (to_acct_mints t sl 0 (ts_mints ts)); [done|]. intros _. apply E5. by destruct Hok as (_ & [? _] & _).
Qed.

(** A key no call mentions as a mint has no index. *)
Lemma run_no_mint E X l ts pk : ts_run E X ts_empty l = Done ts -> ops_ok l -> ts_ctr ts <= 2 ^ 32 -> not_mint E l pk -> ts_mint_ix ts !! pk = None.
Proof.
  intros H Hok Hc Hnm.
  apply (run_ind E X (fun ts _ => ts_mint_ix ts !! pk = None) (fun o => ~ op_names E o pk) (fun x => forall m, x = TPMint m -> ma_pubkey m <> pk)) with (l := l) (ts := ts_empty) (L := []); try done.
  - intros ts0 o ts1 L _ _ Hn Hx Hs. destruct (ts_mint_ix ts1 !! pk) as [i|] eqn:Hi; [|done]. by destruct (sf_new _ _ _ _ Hs _ _ Hi Hx).
  - intros ts0 a ts1 L Hi Hc0 Ha Hq Hx H1. destruct a as [t|m|m q|q]; simpl in H1.
    + unfold add_token in H1. destruct (tb_save _ _) as [[[tb i] b]|]; [|done]. cbn [mbind res_bind] in H1. injection H1 as <-. by destruct b.
    + destruct (ts_mint_ix ts0 !! ma_pubkey m); injection H1 as <-; [done|]. simpl. rewrite lookup_insert_ne; [done|]. by apply Hq.
    + by injection H1 as <-.
    + destruct (ts_mint_ix ts0 !! q); [injection H1 as <-; simpl; apply lookup_delete_None; by right|]. destruct (tb_delete _ _); [|done]. by injection H1 as <-.
  - apply Forall_forall. intros o Ho. by apply Hnm.
  - apply Forall_forall. intros x Hx m -> <-. destruct (log_origin _ _ _ _ H Hok Hc _ Hx) as (o & Ho & Hcf). apply comes_mint in Hcf. by apply (Hnm o Ho).
  - apply tinv_empty.
Qed.
Lemma mint_in_log L pk m : mint_state L pk = Some m -> TPMint m ∈ L.
Proof.
  induction L as [|a L IH] using rev_ind; intros Hs; [done|]. rewrite mint_state_snoc in Hs. apply elem_of_app.
  destruct a as [t|m'|m' q|q]; simpl in Hs; [left; by apply IH| |left; by apply IH|].
  - destruct (_ =? _); [injection Hs as ->; right; by apply elem_of_list_singleton|left; by apply IH].
  - destruct (_ =? _); [done|left; by apply IH].
Qed.
