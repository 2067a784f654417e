(** Program queries of the token program store. *)
From Verif Require Import Base SMap DataModel BincodeModel BincodeProofs FilterModel FilterProofs StoreModel TokenModel TokenProofs TokenProps SplModel SplProofs TokenUtilsModel
  TokenUtilsProofs TokenPendModel TokenPendSpec TokenPendProofs TokenPendProps TokenUtilsProps TokenStoreModel TokenStoreSpec TokenStoreProofs TokenStoreViews TokenStoreProps TokenStoreQuery.
#[local] Arguments le : simpl never.
#[local] Arguments unle : simpl never.
#[local] Opaque to_bytes from_bytes peek_pubkey.

(** What a token query asks for, from its conditions alone.  [pins cs off x]: the whole pubkeys given at offset [off] are all [x]. *)
Definition pins (cs : list cond) (off : N) (x : option pubkey) : Prop :=
  match x with
  | Some o => MemcmpC (Memcmp off (MBytes (le 32 o))) ∈ cs /\ o < 2 ^ 256 /\ forall b, MemcmpC (Memcmp off (MBytes b)) ∈ cs -> lenN b = 32 -> b = le 32 o
  | None => forall b, MemcmpC (Memcmp off (MBytes b)) ∈ cs -> lenN b <> 32
  end.
(** The conditions say that token accounts are meant: the size, or for Token-2022 the account type. *)
Definition token_query (p : pubkey) (cs : list cond) : Prop :=
  (Datasize 165 ∈ cs /\ forall n, Datasize n ∈ cs -> n = 165) \/
  (p = spl_2022_id /\ MemcmpC (Memcmp 165 (MBytes [n2b 2])) ∈ cs /\ forall b, MemcmpC (Memcmp 165 (MBytes b)) ∈ cs -> b = [n2b 2]).
Definition no_token_query (p : pubkey) (cs : list cond) : Prop :=
  Datasize 165 ∉ cs /\ (p = spl_2022_id -> MemcmpC (Memcmp 165 (MBytes [n2b 2])) ∉ cs).
Lemma scan_spec p cs : let s := foldl (om_step p) (OmScan None None None None) cs in
  match om_size s with Some n => Datasize n ∈ cs | None => forall n, Datasize n ∉ cs end /\
  match om_type s with Some b => p = spl_2022_id /\ MemcmpC (Memcmp 165 (MBytes b)) ∈ cs | None => p = spl_2022_id -> forall b, MemcmpC (Memcmp 165 (MBytes b)) ∉ cs end /\
  match om_owner s with Some o => exists b, lenN b = 32 /\ unle b = o /\ MemcmpC (Memcmp 32 (MBytes b)) ∈ cs | None => forall b, lenN b = 32 -> MemcmpC (Memcmp 32 (MBytes b)) ∉ cs end /\
  match om_mint s with Some o => exists b, lenN b = 32 /\ unle b = o /\ MemcmpC (Memcmp 0 (MBytes b)) ∈ cs | None => forall b, lenN b = 32 -> MemcmpC (Memcmp 0 (MBytes b)) ∉ cs end.
Proof.
  induction cs as [|c cs IH] using rev_ind; [cbn; repeat split; intros; apply not_elem_of_nil|]. rewrite foldl_app. cbn [foldl]. cbv zeta in IH.
  set (s := foldl _ _ cs) in *. destruct IH as (I1 & I2 & I3 & I4).
  assert (forall x, x ∈ cs ++ [c] <-> x ∈ cs \/ x = c) as Hel by (intros x; rewrite elem_of_app, elem_of_list_singleton; done).
  assert (forall d, c <> d -> (d ∈ cs ++ [c] <-> d ∈ cs)) as Hne by (intros d Hd; rewrite Hel; naive_solver).
  destruct c as [n|[off [b|t|t]]]; cbn [om_step om_size om_type om_owner om_mint].
  - split; [rewrite Hel; auto|]. split; [|split].
    + destruct (om_type s) as [b|]; [rewrite Hne by done; done|]. intros Hp b. rewrite Hne by done. by apply I2.
    + destruct (om_owner s) as [o|]; [destruct I3 as (b & ? & ? & ?); exists b; rewrite Hne by done; done|]. intros b. rewrite Hne by done. apply I3.
    + destruct (om_mint s) as [o|]; [destruct I4 as (b & ? & ? & ?); exists b; rewrite Hne by done; done|]. intros b. rewrite Hne by done. apply I4.
  - split; [destruct (om_size s) as [n|]; [rewrite Hne by done; done|]; intros n; rewrite Hne by done; apply I1|]. split; [|split].
    + destruct ((off =? 165) && (p =? spl_2022_id)) eqn:Ec.
      * apply andb_true_iff in Ec as [->%N.eqb_eq ->%N.eqb_eq]. rewrite Hel. auto.
      * apply andb_false_iff in Ec. destruct (om_type s) as [x|]; [destruct I2 as [? ?]; rewrite Hel; auto|]. intros -> x [Hx|[= <- <-]]%Hel; [by apply (I2 eq_refl x)|].
        rewrite !N.eqb_refl in Ec. by destruct Ec.
    + destruct ((off =? 32) && (lenN b =? 32)) eqn:Ec.
      * apply andb_true_iff in Ec as [->%N.eqb_eq Hb%N.eqb_eq]. exists b. rewrite Hel. auto.
      * apply andb_false_iff in Ec. destruct (om_owner s) as [o|]; [destruct I3 as (x & ? & ? & ?); exists x; rewrite Hel; auto|]. intros x Hx [Hi|[= <- <-]]%Hel; [by apply (I3 x)|].
        rewrite N.eqb_refl, Hx in Ec. by destruct Ec.
    + destruct ((off =? 0) && (lenN b =? 32)) eqn:Ec.
      * apply andb_true_iff in Ec as [->%N.eqb_eq Hb%N.eqb_eq]. exists b. rewrite Hel. auto.
      * apply andb_false_iff in Ec. destruct (om_mint s) as [o|]; [destruct I4 as (x & ? & ? & ?); exists x; rewrite Hel; auto|]. intros x Hx [Hi|[= <- <-]]%Hel; [by apply (I4 x)|].
        rewrite N.eqb_refl, Hx in Ec. by destruct Ec.
  - split; [destruct (om_size s) as [n|]; [rewrite Hne by done; done|]; intros n; rewrite Hne by done; apply I1|]. split; [|split].
    + destruct (om_type s) as [b|]; [rewrite Hne by done; done|]. intros Hp b. rewrite Hne by done. by apply I2.
    + destruct (om_owner s) as [o|]; [destruct I3 as (b & ? & ? & ?); exists b; rewrite Hne by done; done|]. intros b. rewrite Hne by done. apply I3.
    + destruct (om_mint s) as [o|]; [destruct I4 as (b & ? & ? & ?); exists b; rewrite Hne by done; done|]. intros b. rewrite Hne by done. apply I4.
  - split; [destruct (om_size s) as [n|]; [rewrite Hne by done; done|]; intros n; rewrite Hne by done; apply I1|]. split; [|split].
    + destruct (om_type s) as [b|]; [rewrite Hne by done; done|]. intros Hp b. rewrite Hne by done. by apply I2.
    + destruct (om_owner s) as [o|]; [destruct I3 as (b & ? & ? & ?); exists b; rewrite Hne by done; done|]. intros b. rewrite Hne by done. apply I3.
    + destruct (om_mint s) as [o|]; [destruct I4 as (b & ? & ? & ?); exists b; rewrite Hne by done; done|]. intros b. rewrite Hne by done. apply I4.
Qed.
Lemma pins_eq cs off x (r : option pubkey) : pins cs off x ->
  match r with Some o => exists b, lenN b = 32 /\ unle b = o /\ MemcmpC (Memcmp off (MBytes b)) ∈ cs | None => forall b, lenN b = 32 -> MemcmpC (Memcmp off (MBytes b)) ∉ cs end -> r = x.
Proof.
  intros H Hr. destruct x as [o|], r as [o'|]; simpl in H.
  - destruct Hr as (b & Hl & <- & Hi), H as (_ & Ho & Hall). rewrite (Hall b Hi Hl). f_equal. apply unle_le_small. change (256 ^ N.of_nat 32) with (2 ^ 256). done.
  - exfalso. destruct H as (Hi & _). apply (Hr (le 32 o)); [|done]. unfold lenN. by rewrite le_length.
  - exfalso. destruct Hr as (b & Hl & _ & Hi). by apply (H b).
  - done.
Qed.
Lemma token_query_filter p cs oo mo : token_query p cs -> pins cs 32 oo -> pins cs 0 mo -> owner_mint_filter p cs = (oo, mo).
Proof.
  intros Hq Ho Hm. unfold owner_mint_filter. destruct (scan_spec p cs) as (I1 & I2 & I3 & I4). cbv zeta in *. set (s := foldl _ _ cs) in *.
  rewrite (pins_eq _ _ _ _ Ho I3), (pins_eq _ _ _ _ Hm I4).
  assert (bool_decide (om_size s = Some 165) || bool_decide (om_type s = Some [n2b 2]) = true) as ->; [|done]. apply orb_true_iff. destruct Hq as [[H1 H2]|(H1 & H2 & H3)].
  - left. apply bool_decide_eq_true. destruct (om_size s) as [n|]; [by rewrite (H2 n I1)|by apply I1 in H1].
  - right. apply bool_decide_eq_true. destruct (om_type s) as [b|]; [destruct I2 as [_ I2]; by rewrite (H3 b I2)|]. by apply (I2 H1) in H2.
Qed.
Lemma no_token_query_filter p cs : no_token_query p cs -> owner_mint_filter p cs = (None, None).
Proof.
  intros [H1 H2]. unfold owner_mint_filter. destruct (scan_spec p cs) as (I1 & I2 & _). cbv zeta in *. set (s := foldl _ _ cs) in *.
  rewrite bool_decide_false by (intros E; rewrite E in I1; done). rewrite bool_decide_false by (intros E; rewrite E in I2; destruct I2 as [? ?]; by apply H2). done.
Qed.

(** ** C48: answers match the query *)
(** Queries by owner, or owner and mint: in every reachable store all answers are token accounts with that owner and mint. *)
Theorem C48_owner_partial E X l ts p cs o mo r : ts_run E X ts_empty l = Done ts -> ops_ok l -> ts_ctr ts <= 2 ^ 32 ->
  token_query p cs -> pins cs 32 (Some o) -> pins cs 0 mo -> ts_gpa E ts p (Some cs) Finalized = Done (ROk r) ->
  forall b, b ∈ r -> exists v, d_data b = DRaw v /\ length v = 165%nat /\ take 32 (drop 32 v) = le 32 o /\ forall m, mo = Some m -> take 32 v = le 32 m.
Proof.
  intros H Hok Hc Hf1 Hf2 Hf3 Hq b Hb. pose proof (token_query_filter _ _ _ _ Hf1 Hf2 Hf3) as Hf. pose proof (run_inv _ _ _ _ _ H Hok tinv_empty Hc) as Hi.
  destruct (gpa_owner_spec E [] ts p cs o mo r Hi Hq Hf) as (mi & Hmi & Hs & _). destruct (Hs b Hb) as (i & t & Hst & Hk & Ht).
  pose proof Ht as Ht'. apply token_to_acct_some in Ht' as (Hd & _). destruct (ti_tokens _ Hi _ _ Hst Hd) as [_ Hx].
  destruct (token_bytes _ _ _ _ _ Hx Ht) as (m & v & Hm & Hv & Hl & Hb1 & Hb2). exists v. split; [done|]. split; [done|].
  unfold keep_token in Hk. destruct mo as [m0|].
  - destruct Hmi as (j & Hj & ->). apply andb_true_iff in Hk as [Hk1%N.eqb_eq Hk2%N.eqb_eq]. subst j o. split; [done|]. intros m1 [= <-]. rewrite Hb1. f_equal.
    apply (ti_mints _ Hi) in Hm. destruct (ti_ix _ Hi) as [Hinj _]. by eapply Hinj.
  - subst mi. apply N.eqb_eq in Hk. subst o. done.
Qed.
Print Assumptions C48_owner_partial.
(** The query for mints, by data size 82: exactly the finalized mints whose data meets all conditions, each once. *)
Lemma keep_all_elem E cs l r : keep_all E cs l = Done r ->
  forall b, b ∈ r <-> b ∈ l /\ all_r (fun c => d ← data_bytes E (d_data b); allows E c d) cs = Done true.
Proof.
  revert r. induction l as [|a l IH]; intros r H b; simpl in H.
  - injection H as <-. split; [intros Hb; by apply elem_of_nil in Hb|]. intros [Hb _]. by apply elem_of_nil in Hb.
  - destruct (all_r _ cs) as [k|] eqn:Hk; [|done]. cbn [mbind res_bind] in H. destruct (keep_all E cs l) as [r0|] eqn:Hr; [|done]. cbn [mbind res_bind] in H.
    injection H as <-. specialize (IH _ eq_refl b). rewrite elem_of_cons. destruct k.
    + rewrite elem_of_cons, IH. split; [intros [->|[? ?]]; auto|]. intros [[->|?] ?]; auto.
    + rewrite IH. split; [intros [? ?]; auto|]. intros [[->|?] ?]; [congruence|auto].
Qed.
Lemma keep_all_sub E cs l r (f : acct -> pubkey) : keep_all E cs l = Done r -> NoDup (f <$> l) -> NoDup (f <$> r).
Proof.
  revert r. induction l as [|a l IH]; intros r H Hn.
  - simpl in H. injection H as <-. done.
  - pose proof (keep_all_elem _ _ _ _ H) as Hel. simpl in H. destruct (all_r _ cs) as [k|] eqn:Hk; [|done]. cbn [mbind res_bind] in H.
    destruct (keep_all E cs l) as [r0|] eqn:Hr; [|done]. cbn [mbind res_bind] in H. injection H as <-. rewrite fmap_cons in Hn. apply NoDup_cons in Hn as [Hn1 Hn2].
    destruct k; [|by apply IH]. rewrite fmap_cons. apply NoDup_cons. split; [|by apply IH]. intros Hin. apply Hn1.
    apply elem_of_list_fmap in Hin as (x & Hx & Hin). apply (keep_all_elem _ _ _ _ Hr) in Hin as [Hin _]. rewrite Hx. by apply elem_of_list_fmap_1.
Qed.
Theorem C48_mints E X l ts p cs r : ts_run E X ts_empty l = Done ts -> ops_ok l -> ts_ctr ts <= 2 ^ 32 ->
  no_token_query p cs -> ts_gpa E ts p (Some cs) Finalized = Done (ROk r) ->
  NoDup (d_pubkey <$> r) /\
  forall b, b ∈ r <-> exists pk m, mint_state (ts_log E X ts_empty l).*1 pk = Some m /\ b = mint_to_acct m (ts_fin ts) 0 /\
    forall c, c ∈ cs -> exists v, data_bytes E (d_data b) = Done v /\ allows E c v = Done true.
Proof.
  intros H Hok Hc Hf Hq. apply no_token_query_filter in Hf. pose proof (run_inv _ _ _ _ _ H Hok tinv_empty Hc) as Hi. destruct (run_agrees _ _ _ _ H Hok Hc) as [_ Hag].
  unfold ts_gpa in Hq. destruct (_ && _); [done|]. unfold gpa_fin in Hq. rewrite Hf in Hq. destruct (bool_decide _); [|done].
  destruct (keep_all _ _ _) as [r0|] eqn:Hk; [|done]. cbn [mbind res_bind] in Hq. injection Hq as <-. split.
  - eapply keep_all_sub; [exact Hk|]. rewrite <- list_fmap_compose. apply NoDup_fmap_2_strong; [|apply NoDup_map_to_list].
    intros [i m] [j m'] Hx Hy He. apply elem_of_map_to_list in Hx, Hy. simpl in He. pose proof (ti_mints _ Hi _ _ Hx) as H1. pose proof (ti_mints _ Hi _ _ Hy) as H2.
    assert (i = j) as -> by congruence. f_equal. congruence.
  - intros b. rewrite (keep_all_elem _ _ _ _ Hk). rewrite all_r_true. split.
    + intros [Hb Hall]. apply elem_of_list_fmap in Hb as ([i m] & -> & Hx). apply elem_of_map_to_list in Hx. exists (ma_pubkey m), m. split; [|split; [done|]].
      * apply Hag. exists i. split; [by apply (ti_mints _ Hi)|done].
      * intros c Hcc. specialize (Hall c Hcc). simpl in Hall |- *. eauto.
    + intros (pk & m & Hm & -> & Hall). apply Hag in Hm as (i & Hix & Hm). split.
      * apply elem_of_list_fmap. exists (i, m). split; [done|]. by apply elem_of_map_to_list.
      * intros c Hcc. destruct (Hall c Hcc) as (v & Hv & Ha). by rewrite Hv.
Qed.
Print Assumptions C48_mints.

(** ** C49: answers by owner and mint are complete *)
Lemma token_read E X l ts pk b : ts_run E X ts_empty l = Done ts -> ops_ok l -> ts_ctr ts <= 2 ^ 32 -> tidy E l -> token_key E l pk ->
  ts_get ts pk Finalized = Done (ROk (Some b)) <-> exists i t, at_pos (ts_table ts) pk i t /\ token_to_acct t (ts_fin ts) 0 (ts_mints ts) = Done (Some b).
Proof.
  intros H Hok Hc Htd (o & r & Ho & Hop).
  assert (not_mint E l pk) as Hnm by (intros o' Ho'; destruct (Htd _ _ _ Ho Hop o' Ho') as (? & ? & _); done).
  assert (no_collision l pk) as Hnc by (intros o' Ho'; by destruct (Htd _ _ _ Ho Hop o' Ho') as (_ & _ & _ & ?)).
  assert (multi_state (ts_log E X ts_empty l).*1 pk = None) as Hms.
  { apply multi_state_none. intros m Hm. destruct (log_origin _ _ _ _ H Hok Hc _ Hm) as (o' & Ho' & Hcf'). apply comes_multi in Hcf'.
    by destruct (Htd _ _ _ Ho Hop o' Ho') as (_ & _ & ? & _). }
  rewrite (C46_token_partial _ _ _ _ _ H Hok Hc Hnm Hnc Hms). destruct (run_holds _ _ _ _ _ H Hok Hc Hnm Hnc) as [_ Hh].
  destruct (tok_state _ pk) as [t|].
  - destruct (proj1 (Hh t) eq_refl) as [i Ha]. split.
    + destruct (token_to_acct _ _ _ _) as [x|] eqn:Hx; [|done]. cbn [mbind res_bind]. intros [= ->]. eauto.
    + intros (j & t' & Ha' & Ht). destruct (at_pos_fun _ _ _ _ _ _ (ti_table _ (run_inv _ _ _ _ _ H Hok tinv_empty Hc)) Ha Ha') as [-> ->]. by rewrite Ht.
  - split; [done|]. intros (j & t' & Ha' & Ht). pose proof (proj2 (Hh t') (ex_intro _ j Ha')). done.
Qed.
Lemma table_key E X l ts pk i t : ts_run E X ts_empty l = Done ts -> ops_ok l -> ts_ctr ts <= 2 ^ 32 -> TPToken t ∈ (ts_log E X ts_empty l).*1 ->
  at_pos (ts_table ts) pk i t -> token_key E l pk.
Proof.
  intros H Hok Hc HL (_ & <- & _). destruct (log_origin _ _ _ _ H Hok Hc _ HL) as (o & Ho & Hcf). apply comes_token in Hcf as (r & Hr & _). by exists o, r.
Qed.
(** By owner (and mint): exactly the token accounts whose finalized read has these bytes, each once. *)
Theorem C49_owner_partial E X l ts p cs o mo r : ts_run E X ts_empty l = Done ts -> ops_ok l -> ts_ctr ts <= 2 ^ 32 ->
  tidy E l -> keeps_owner E l -> token_query p cs -> pins cs 32 (Some o) -> pins cs 0 mo -> ts_gpa E ts p (Some cs) Finalized = Done (ROk r) ->
  NoDup (d_pubkey <$> r) /\
  forall b, b ∈ r <-> exists pk v, token_key E l pk /\ ts_get ts pk Finalized = Done (ROk (Some b)) /\ d_data b = DRaw v /\
    take 32 (drop 32 v) = le 32 o /\ forall m, mo = Some m -> take 32 v = le 32 m.
Proof.
  intros H Hok Hc Htd Hko Hf1 Hf2 Hf3 Hq. pose proof (token_query_filter _ _ _ _ Hf1 Hf2 Hf3) as Hf. pose proof (run_inv _ _ _ _ _ H Hok tinv_empty Hc) as Hi.
  pose proof (run_qinv _ _ _ _ H Hok Hc (log_owner_stable _ _ _ _ H Hok Hc Hko) (log_isolated _ _ _ _ H Hok Hc Htd)) as HQ.
  destruct (gpa_owner_spec E (ts_log E X ts_empty l).*1 ts p cs o mo r Hi Hq Hf) as (mi & Hmi & Hs & Hc'). destruct (Hc' HQ) as [Hcomp Hnd]. split; [done|].
  destruct (om_bounds _ _ _ _ Hf) as [Hbo Hbm]. specialize (Hbo o eq_refl). intros b. split.
  - intros Hb. destruct (C48_owner_partial _ _ _ _ _ _ _ _ _ H Hok Hc Hf1 Hf2 Hf3 Hq b Hb) as (v & Hv & _ & Ho & Hm). destruct (Hs b Hb) as (i & t & Hst & Hk & Ht).
    pose proof Ht as Ht'. apply token_to_acct_some in Ht' as (Hd & _). pose proof (qi_live _ _ HQ _ _ Hst Hd) as Ha.
    assert (token_key E l (ta_pubkey t)) as Hkey by (eapply table_key; [done..|by eapply (qi_log _ _ HQ)|done]).
    exists (ta_pubkey t), v. split; [done|]. split; [|done]. apply (token_read _ _ _ _ _ _ H Hok Hc Htd Hkey). eauto.
  - intros (pk & v & Hkey & Hg & Hv & Ho & Hm). apply (token_read _ _ _ _ _ _ H Hok Hc Htd Hkey) in Hg as (i & t & Ha & Ht).
    apply (Hcomp pk i t); [done| |done]. destruct (ti_tokens _ Hi i t (proj1 Ha) (ti_live _ Hi _ _ _ Ha)) as [_ Hx].
    destruct (token_bytes _ _ _ _ _ Hx Ht) as (m & v' & Hmm & Hv' & Hl & Hb1 & Hb2). assert (v' = v) as -> by congruence.
    assert (ta_owner t = o) as Hot. { apply le32_inj; [|done|congruence]. destruct Ha as ([[Hgd _] _] & _). unfold ta_ok in Hgd. tauto. }
    unfold keep_token. destruct mo as [m0|].
    + destruct Hmi as (j & Hj & ->). apply andb_true_iff. split; [|by apply N.eqb_eq]. apply N.eqb_eq.
      assert (ma_pubkey m = m0) as <-. { apply le32_inj; [by eapply mint_key_ok|by apply Hbm|]. rewrite <- Hb1. by apply Hm. }
      apply (ti_mints _ Hi) in Hmm. congruence.
    + subst mi. by apply N.eqb_eq.
Qed.
Print Assumptions C49_owner_partial.
(** By mint alone. *)
Theorem C49_mint_partial E X l ts p cs m r : ts_run E X ts_empty l = Done ts -> ops_ok l -> ts_ctr ts <= 2 ^ 32 ->
  tidy E l -> keeps_mint E l -> mints_stay E l -> token_query p cs -> pins cs 32 None -> pins cs 0 (Some m) -> ts_gpa E ts p (Some cs) Finalized = Done (ROk r) ->
  NoDup (d_pubkey <$> r) /\
  forall b, b ∈ r <-> exists pk v, token_key E l pk /\ ts_get ts pk Finalized = Done (ROk (Some b)) /\ d_data b = DRaw v /\ take 32 v = le 32 m.
Proof.
  intros H Hok Hc Htd Hkm Hst Hf1 Hf2 Hf3 Hq. pose proof (token_query_filter _ _ _ _ Hf1 Hf2 Hf3) as Hf. pose proof (run_inv _ _ _ _ _ H Hok tinv_empty Hc) as Hi.
  destruct (run_minv _ _ _ _ H Hok Hc Hkm Hst Htd) as ([M1 M2 M3] & Hlog & Hlv).
  destruct (om_bounds _ _ _ _ Hf) as [_ Hbm]. specialize (Hbm m eq_refl).
  unfold ts_gpa in Hq. destruct (_ && _); [done|]. unfold gpa_fin in Hq. rewrite Hf in Hq.
  assert (forall pk i t b v, at_pos (ts_table ts) pk i t -> token_to_acct t (ts_fin ts) 0 (ts_mints ts) = Done (Some b) -> d_data b = DRaw v ->
    take 32 v = le 32 m <-> ts_mint_ix ts !! m = Some (ta_mint t)) as Hbytes.
  { intros pk i t b v Ha Ht Hv. destruct (ti_tokens _ Hi i t (proj1 Ha) (ti_live _ Hi _ _ _ Ha)) as [_ Hx].
    destruct (token_bytes _ _ _ _ _ Hx Ht) as (mm & v' & Hmm & Hv' & Hl & Hb1 & Hb2). assert (v' = v) as -> by congruence. pose proof (ti_mints _ Hi _ _ Hmm) as Hix. split.
    - intros Hb. assert (ma_pubkey mm = m) as <-; [|done]. apply le32_inj; [by eapply mint_key_ok|done|congruence].
    - intros Hm'. rewrite Hb1. f_equal. destruct (ti_ix _ Hi) as [Hinj _]. by eapply Hinj. }
  assert ((forall pk i t b v, at_pos (ts_table ts) pk i t -> token_to_acct t (ts_fin ts) 0 (ts_mints ts) = Done (Some b) -> d_data b = DRaw v -> take 32 v <> le 32 m) ->
    forall b, b ∈ ([] : list acct) <-> exists pk v, token_key E l pk /\ ts_get ts pk Finalized = Done (ROk (Some b)) /\ d_data b = DRaw v /\ take 32 v = le 32 m) as Hempty.
  { intros Hno b. split; [intros Hb; by apply elem_of_nil in Hb|]. intros (pk & v & Hkey & Hg & Hv & Hm). apply (token_read _ _ _ _ _ _ H Hok Hc Htd Hkey) in Hg as (i & t & Ha & Ht).
    exfalso. by eapply Hno. }
  destruct (ts_mint_ix ts !! m) as [i|] eqn:Hix.
  2:{ injection Hq as <-. split; [constructor|]. apply Hempty. intros pk i t b v Ha Ht Hv Hm. by apply (Hbytes _ _ _ _ _ Ha Ht Hv) in Hm. }
  destruct (ts_by_mint ts !! i) as [ixs|] eqn:Hbm'.
  2:{ injection Hq as <-. split; [constructor|]. apply Hempty. intros pk j t b v Ha Ht Hv Hm. apply (Hbytes _ _ _ _ _ Ha Ht Hv) in Hm; injection Hm as Hm.
      destruct (M1 _ _ _ Ha) as (ixs & Hk & _). congruence. }
  destruct (tb_by_index _ _) as [lt|] eqn:Hl; [|done]. cbn [mbind res_bind] in Hq. destruct (tokens_to_accts ts lt) as [r0|] eqn:Hr; [|done]. cbn [mbind res_bind] in Hq. injection Hq as <-.
  destruct (index_answer _ _ _ _ Hi Hlv Hl Hr) as [Hnd Hel]. split; [done|]. intros b. rewrite Hel. split.
  - intros (j & t & Hj & Hs & Ht). apply elem_of_list_to_set in Hj. pose proof Ht as Ht'. apply token_to_acct_some in Ht' as (Hd & _). pose proof (Hlv _ _ Hs Hd) as Ha.
    assert (token_key E l (ta_pubkey t)) as Hkey by (eapply table_key; [done..|by eapply Hlog|done]).
    destruct (ti_tokens _ Hi j t Hs Hd) as [_ Hx]. destruct (token_bytes _ _ _ _ _ Hx Ht) as (mm & v & _ & Hv & _).
    exists (ta_pubkey t), v. split; [done|]. split; [apply (token_read _ _ _ _ _ _ H Hok Hc Htd Hkey); eauto|]. split; [done|].
    apply (Hbytes _ _ _ _ _ Ha Ht Hv). by rewrite (M2 _ _ _ _ Hbm' Hj Hs Hd).
  - intros (pk & v & Hkey & Hg & Hv & Hm). apply (token_read _ _ _ _ _ _ H Hok Hc Htd Hkey) in Hg as (j & t & Ha & Ht). exists j, t.
    split; [|split; [apply Ha|done]]. apply (Hbytes _ _ _ _ _ Ha Ht Hv) in Hm; injection Hm as Hm. destruct (M1 _ _ _ Ha) as (ixs' & Hk & Hin). apply elem_of_list_to_set. congruence.
Qed.
Print Assumptions C49_mint_partial.

(** ** Checking the conditions on concrete histories of uncompressed accounts *)
Definition op_bytes (o : tsop) : option (pubkey * bytes) :=
  match op_acct o with Some a => match d_data a with DRaw v => Some (d_pubkey a, v) | _ => None end | None => None end.
Definition raw_b (o : tsop) : bool := match op_acct o with Some a => match d_data a with DRaw _ => true | _ => false end | None => true end.
Definition tok_of (o : tsop) : option (pubkey * spl_account) := '(pk, v) ← op_bytes o; r ← unpack_account v; Some (pk, r).
Definition is_mint_b (o : tsop) (pk : pubkey) : bool :=
  match op_bytes o with Some (q, v) => (q =? pk) && bool_decide (is_Some (unpack_mint v)) | None => false end.
Definition is_multi_b (o : tsop) (pk : pubkey) : bool :=
  match op_bytes o with Some (q, v) => (q =? pk) && bool_decide (is_Some (unpack_multisig v)) | None => false end.
Definition names_b (o : tsop) (pk : pubkey) : bool := match tok_of o with Some (_, r) => sa_mint r =? pk | None => false end.
Definition collides_b (o : tsop) (pk : pubkey) : bool :=
  match op_acct o with Some a => negb (d_pubkey a =? pk) && bool_decide (take 4 (le 32 (d_pubkey a)) = take 4 (le 32 pk)) | None => false end.
Definition tidy_b (l : list tsop) : bool :=
  forallb (fun o => match tok_of o with None => true | Some (pk, _) =>
    forallb (fun o' => negb (names_b o' pk) && negb (is_mint_b o' pk) && negb (is_multi_b o' pk) && negb (collides_b o' pk)) l end) l.
Definition keeps_b (f : spl_account -> N) (l : list tsop) : bool :=
  forallb (fun o => match tok_of o with None => true | Some (pk, r) =>
    forallb (fun o' => match tok_of o' with None => true | Some (pk', r') => negb (pk =? pk') || (f r =? f r') end) l end) l.
Definition op_key (o : tsop) : option pubkey := d_pubkey <$> op_acct o.
Definition stay_b (l : list tsop) : bool :=
  forallb (fun o' => match op_key o' with None => true | Some pk => negb (closes_b o' pk) || forallb (fun o => negb (names_b o pk) && negb (is_mint_b o pk)) l end) l.
Section check.
Context (l : list tsop) (Hraw : forallb raw_b l = true).
Lemma op_raw o a v : o ∈ l -> op_acct o = Some a -> data_bytes E0 (d_data a) = Done v -> op_bytes o = Some (d_pubkey a, v).
Proof.
  intros Ho Ha Hv. rewrite forallb_forall in Hraw. specialize (Hraw o (proj1 (elem_of_list_In _ _) Ho)). unfold raw_b, op_bytes in *. rewrite Ha in *.
  destruct (d_data a); try done. simpl in Hv. by injection Hv as ->.
Qed.
Lemma op_token_b o pk r : o ∈ l -> op_token E0 o pk r -> tok_of o = Some (pk, r).
Proof. intros Ho (a & v & Ha & <- & Hv & Hu). unfold tok_of. rewrite (op_raw _ _ _ Ho Ha Hv). simpl. by rewrite Hu. Qed.
Lemma op_names_b o pk : o ∈ l -> op_names E0 o pk -> names_b o pk = true.
Proof. intros Ho (a & v & r & Ha & Hv & Hu & <-). unfold names_b, tok_of. rewrite (op_raw _ _ _ Ho Ha Hv). simpl. rewrite Hu. apply N.eqb_refl. Qed.
Lemma op_mint_b o pk : o ∈ l -> op_mint E0 o pk -> is_mint_b o pk = true.
Proof. intros Ho (a & v & Ha & <- & Hv & Hu). unfold is_mint_b. rewrite (op_raw _ _ _ Ho Ha Hv). rewrite N.eqb_refl. simpl. by apply bool_decide_eq_true. Qed.
Lemma op_multi_b o pk : o ∈ l -> op_multi E0 o pk -> is_multi_b o pk = true.
Proof. intros Ho (a & v & Ha & <- & Hv & Hu). unfold is_multi_b. rewrite (op_raw _ _ _ Ho Ha Hv). rewrite N.eqb_refl. simpl. by apply bool_decide_eq_true. Qed.
Lemma op_collides_b o pk : op_collides o pk -> collides_b o pk = true.
Proof. intros (a & Ha & Hn & Hp). unfold collides_b. rewrite Ha. apply N.eqb_neq in Hn. rewrite Hn. simpl. by apply bool_decide_eq_true. Qed.
Lemma tidy_check : tidy_b l = true -> tidy E0 l.
Proof.
  intros H o pk r Ho Hop o' Ho'. unfold tidy_b in H. rewrite forallb_forall in H. specialize (H o (proj1 (elem_of_list_In _ _) Ho)).
  rewrite (op_token_b _ _ _ Ho Hop) in H. rewrite forallb_forall in H. specialize (H o' (proj1 (elem_of_list_In _ _) Ho')).
  apply andb_true_iff in H as [H H4]. apply andb_true_iff in H as [H H3]. apply andb_true_iff in H as [H1 H2]. apply negb_true_iff in H1, H2, H3, H4.
  split; [|split; [|split]]; intros Hx.
  - apply op_names_b in Hx; [congruence|done].
  - apply op_mint_b in Hx; [congruence|done].
  - apply op_multi_b in Hx; [congruence|done].
  - apply op_collides_b in Hx. congruence.
Qed.
Lemma keeps_check f : keeps_b f l = true -> forall o o' pk r r', o ∈ l -> o' ∈ l -> op_token E0 o pk r -> op_token E0 o' pk r' -> f r = f r'.
Proof.
  intros H o o' pk r r' Ho Ho' Hop Hop'. unfold keeps_b in H. rewrite forallb_forall in H. specialize (H o (proj1 (elem_of_list_In _ _) Ho)).
  rewrite (op_token_b _ _ _ Ho Hop) in H. rewrite forallb_forall in H. specialize (H o' (proj1 (elem_of_list_In _ _) Ho')).
  rewrite (op_token_b _ _ _ Ho' Hop'), N.eqb_refl in H. simpl in H. by apply N.eqb_eq.
Qed.
Lemma stay_check : stay_b l = true -> mints_stay E0 l.
Proof.
  intros H o o' pk Ho Ho' Hn Hcl. unfold stay_b in H. rewrite forallb_forall in H. specialize (H o' (proj1 (elem_of_list_In _ _) Ho')).
  assert (op_key o' = Some pk) as Hk by (destruct Hcl as (a & Ha & <- & _); unfold op_key; by rewrite Ha).
  rewrite Hk, (op_closes_b _ _ Hcl) in H. simpl in H. rewrite forallb_forall in H. specialize (H o (proj1 (elem_of_list_In _ _) Ho)).
  apply andb_true_iff in H as [H1 H2]. apply negb_true_iff in H1, H2. destruct Hn as [Hx|Hx]; [apply op_names_b in Hx; [congruence|done]|apply op_mint_b in Hx; [congruence|done]].
Qed.
End check.
(** Two mints and four token accounts of two owners; one changed, one closed. *)
Definition life2 : list tsop :=
  [TInit (mintd 1001 50 1 1); TInit (mintd 1004 60 1 2);
   TUpdate (tokd 77 1001 1002 5 10 1) Finalized; TUpdate (tokd 78 1004 1002 6 10 2) Finalized; TUpdate (tokd 79 1001 1003 7 10 3) Finalized;
   TUpdate (tokd 80 1001 1002 8 10 4) Confirmed; TSlot ord0 (SlotInfo 10 9 0) Processed; TSlot ord0 (SlotInfo 10 9 0) Finalized;
   TUpdate (tokd 77 1001 1002 9 11 5) Finalized; TUpdate (closed 79 12 6) Finalized].
Definition by_owner (o : N) : list cond := [Datasize 165; MemcmpC (Memcmp 32 (MBytes (le 32 o)))].
Definition by_mint (m : N) : list cond := [Datasize 165; MemcmpC (Memcmp 0 (MBytes (le 32 m)))].
Definition keys (r : res (result (list acct))) : option (list pubkey) := match r with Done (ROk l) => Some (d_pubkey <$> l) | _ => None end.
Definition gpa_done (r : res (result (list acct))) : list acct := match r with Done (ROk l) => l | _ => [] end.
Lemma gpa_eq r : is_Some (keys r) -> r = Done (ROk (gpa_done r)).
Proof. destruct r as [[l|e]|]; intros [x Hx]; done. Qed.
Lemma asks_owner o : o < 2 ^ 256 -> token_query spl_token_id (by_owner o) /\ pins (by_owner o) 32 (Some o) /\ pins (by_owner o) 0 None.
Proof. intros Ho. unfold token_query, pins, by_owner. split_and!; [left; split; set_solver|set_solver|done|set_solver|set_solver]. Qed.
Lemma asks_mint m : m < 2 ^ 256 -> token_query spl_token_id (by_mint m) /\ pins (by_mint m) 32 None /\ pins (by_mint m) 0 (Some m).
Proof. intros Ho. unfold token_query, pins, by_mint. split_and!; [left; split; set_solver|set_solver|set_solver|done|set_solver]. Qed.
Lemma asks_both o m : o < 2 ^ 256 -> m < 2 ^ 256 -> let cs := by_owner o ++ by_mint m in token_query spl_token_id cs /\ pins cs 32 (Some o) /\ pins cs 0 (Some m).
Proof. intros Ho Hm. unfold token_query, pins, by_mint, by_owner. simpl. split_and!; [left; split; set_solver|set_solver|done|set_solver|set_solver|done|set_solver]. Qed.
Example C48_example_hyps : ts_run E0 X0 ts_empty life2 = Done (final life2) /\ ops_ok life2 /\ ts_ctr (final life2) <= 2 ^ 32 /\
  (token_query spl_token_id (by_owner 1002) /\ pins (by_owner 1002) 32 (Some 1002) /\ pins (by_owner 1002) 0 None) /\
  (token_query spl_token_id (by_owner 1002 ++ by_mint 1004) /\ pins (by_owner 1002 ++ by_mint 1004) 32 (Some 1002) /\ pins (by_owner 1002 ++ by_mint 1004) 0 (Some 1004)) /\
  no_token_query spl_token_id [Datasize 82] /\
  keys (ts_gpa E0 (final life2) spl_token_id (Some (by_owner 1002)) Finalized) = Some [77; 78; 80] /\
  keys (ts_gpa E0 (final life2) spl_token_id (Some (by_owner 1002 ++ by_mint 1004)) Finalized) = Some [78] /\
  keys (ts_gpa E0 (final life2) spl_token_id (Some [Datasize 82]) Finalized) = Some [1001; 1004].
Proof.
  split; [apply final_run; by vm_compute|]. split; [repeat constructor; simpl; try done; intros m; done|]. split; [by vm_compute|].
  split; [by apply asks_owner|]. split; [by apply asks_both|]. split; [split; set_solver|]. split; [by vm_compute|]. split; by vm_compute.
Qed.
Example C49_example_hyps : tidy E0 life2 /\ keeps_owner E0 life2 /\ keeps_mint E0 life2 /\ mints_stay E0 life2 /\
  (token_query spl_token_id (by_mint 1001) /\ pins (by_mint 1001) 32 None /\ pins (by_mint 1001) 0 (Some 1001)) /\
  keys (ts_gpa E0 (final life2) spl_token_id (Some (by_mint 1001)) Finalized) = Some [77; 80] /\ token_key E0 life2 77.
Proof.
  assert (forallb raw_b life2 = true) as Hraw by done.
  split; [apply tidy_check; [done|by vm_compute]|]. split; [refine (keeps_check _ Hraw sa_owner _); by vm_compute|].
  split; [refine (keeps_check _ Hraw sa_mint _); by vm_compute|]. split; [apply stay_check; [done|by vm_compute]|]. split; [by apply asks_mint|]. split; [by vm_compute|].
  eexists _, _. split; [right; right; left|]. eexists _, _. split; [done|]. split; [done|]. split; [done|]. by vm_compute.
Qed.

(** ** Findings *)
(** The queried program is ignored: a query of Token-2022 returns accounts of the SPL token program. *)
Theorem C48_program_refuted : exists l p cs r b, ops_ok l /\ ts_run E0 X0 ts_empty l = Done (final l) /\
  ts_gpa E0 (final l) p (Some cs) Finalized = Done (ROk r) /\ b ∈ r /\ d_owner b <> p.
Proof.
  exists (take 3 life2), spl_2022_id, (by_owner 1002). eexists _, _. split; [repeat constructor|]. split; [apply final_run; by vm_compute|]. split; [by vm_compute|].
  split; [left|]. by vm_compute.
Qed.
Print Assumptions C48_program_refuted.
(** Conditions other than those on owner and mint are ignored: here the amount is asked to be zero and is five. *)
Theorem C48_condition_refuted : exists l p cs r b c v, ops_ok l /\ ts_run E0 X0 ts_empty l = Done (final l) /\
  ts_gpa E0 (final l) p (Some cs) Finalized = Done (ROk r) /\ b ∈ r /\ c ∈ cs /\ d_data b = DRaw v /\ allows E0 c v = Done false.
Proof.
  exists (take 3 life2), spl_token_id, (by_owner 1002 ++ [MemcmpC (Memcmp 64 (MBytes (le 8 0)))]). eexists _, _, (MemcmpC (Memcmp 64 (MBytes (le 8 0)))), _.
  split; [repeat constructor|]. split; [apply final_run; by vm_compute|]. split; [by vm_compute|]. split; [left|]. split; [right; right; left|]. split; [done|]. by vm_compute.
Qed.
Print Assumptions C48_condition_refuted.
(** Below finalized the pending version replaces the finalized one without being checked: the query for one owner
    returns an account of another. *)
Definition hand_over : list tsop := take 3 life2 ++ [TUpdate (tokd 77 1001 1003 5 11 2) Processed; TSlot ord0 (SlotInfo 11 10 0) Processed].
Theorem C48_pending_refuted : exists l o r b v, ops_ok l /\ ts_run E0 X0 ts_empty l = Done (final l) /\
  ts_gpa E0 (final l) spl_token_id (Some (by_owner o)) Processed = Done (ROk r) /\ b ∈ r /\ d_data b = DRaw v /\
  allows E0 (MemcmpC (Memcmp 32 (MBytes (le 32 o)))) v = Done false.
Proof.
  exists hand_over, 1002. eexists _, _, _. split; [repeat constructor; simpl; try done; intros m; done|]. split; [apply final_run; by vm_compute|]. split; [by vm_compute|].
  split; [left|]. split; [done|]. by vm_compute.
Qed.
Print Assumptions C48_pending_refuted.
(** The index by mint is never updated: an account that was closed and made again for another mint within one slot, so that
    only the last state is delivered, is still returned for the first mint. *)
Definition other_mint : list tsop := take 3 life2 ++ [TUpdate (tokd 77 1004 1002 5 11 2) Finalized].
Theorem C48_mint_refuted : exists l m r b v, ops_ok l /\ ts_run E0 X0 ts_empty l = Done (final l) /\
  ts_gpa E0 (final l) spl_token_id (Some (by_mint m)) Finalized = Done (ROk r) /\ b ∈ r /\ d_data b = DRaw v /\
  allows E0 (MemcmpC (Memcmp 0 (MBytes (le 32 m)))) v = Done false.
Proof.
  exists other_mint, 1001. eexists _, _, _. split; [repeat constructor|]. split; [apply final_run; by vm_compute|]. split; [by vm_compute|].
  split; [left|]. split; [done|]. by vm_compute.
Qed.
Print Assumptions C48_mint_refuted.
(** An account dropped because a key with the same first four bytes was closed is still returned by queries, though reading
    it gives nothing. *)
Theorem C48_orphan_refuted : exists l o r b, ops_ok l /\ ts_run E0 X0 ts_empty l = Done (final l) /\
  ts_gpa E0 (final l) spl_token_id (Some (by_owner o)) Finalized = Done (ROk r) /\ b ∈ r /\ ts_get (final l) (d_pubkey b) Finalized = Done (ROk None).
Proof.
  exists wipe1, 1002. eexists _, _. split; [repeat constructor|]. split; [apply final_run; by vm_compute|]. split; [by vm_compute|].
  split; [left|]. by vm_compute.
Qed.
Print Assumptions C48_orphan_refuted.
(** The index by owner is never updated either: an account handed over to another owner is not found under the new one. *)
Definition handed_over : list tsop := take 3 life2 ++ [TUpdate (tokd 77 1001 1003 5 11 2) Finalized].
Theorem C49_owner_refuted : exists l o pk b v, ops_ok l /\ ts_run E0 X0 ts_empty l = Done (final l) /\
  ts_get (final l) pk Finalized = Done (ROk (Some b)) /\ d_data b = DRaw v /\ take 32 (drop 32 v) = le 32 o /\
  ts_gpa E0 (final l) spl_token_id (Some (by_owner o)) Finalized = Done (ROk []).
Proof.
  exists handed_over, 1003, 77. eexists _, _. split; [repeat constructor|]. split; [apply final_run; by vm_compute|]. split; [by vm_compute|].
  split; [done|]. split; by vm_compute.
Qed.
Print Assumptions C49_owner_refuted.
(** Below finalized new accounts are missing, though reads return them. *)
Definition fresh : list tsop := [TInit (mintd 1001 50 1 1); TUpdate (tokd 77 1001 1002 5 10 1) Confirmed; TSlot ord0 (SlotInfo 10 9 0) Confirmed].
Theorem C49_pending_refuted : exists l o pk b v, ops_ok l /\ ts_run E0 X0 ts_empty l = Done (final l) /\
  ts_get (final l) pk Confirmed = Done (ROk (Some b)) /\ d_data b = DRaw v /\ take 32 (drop 32 v) = le 32 o /\
  ts_gpa E0 (final l) spl_token_id (Some (by_owner o)) Confirmed = Done (ROk []).
Proof.
  exists fresh, 1002, 77. eexists _, _. split; [repeat constructor; simpl; intros m; done|]. split; [apply final_run; by vm_compute|]. split; [by vm_compute|].
  split; [done|]. split; by vm_compute.
Qed.
Print Assumptions C49_pending_refuted.
(** An owner given in base58 rather than bytes is not recognised and the query is refused. *)
Theorem C49_base58_refuted : exists l o pk b v, ops_ok l /\ ts_run E0 X0 ts_empty l = Done (final l) /\
  ts_get (final l) pk Finalized = Done (ROk (Some b)) /\ d_data b = DRaw v /\ take 32 (drop 32 v) = le 32 o /\
  forall s, ts_gpa E0 (final l) spl_token_id (Some [Datasize 165; MemcmpC (Memcmp 32 (MBase58 s))]) Finalized = Done (RErr ShouldContainAnAccountFilter).
Proof.
  exists (take 3 life2), 1002, 77. eexists _, _. split; [repeat constructor; simpl; intros m; done|]. split; [apply final_run; by vm_compute|]. split; [by vm_compute|].
  split; [done|]. split; [by vm_compute|]. intros s. by vm_compute.
Qed.
Print Assumptions C49_base58_refuted.
