(** What the token program store holds, in terms of the finalized deliveries of its history. *)
From Verif Require Import Base SMap DataModel BincodeModel BincodeProofs FilterModel StoreModel TokenModel TokenProofs TokenProps SplModel SplProofs TokenUtilsModel
  TokenUtilsProofs TokenPendModel TokenPendSpec TokenPendProofs TokenPendProps TokenUtilsProps TokenStoreModel TokenStoreSpec TokenStoreProofs.
#[local] Arguments le : simpl never.
#[local] Arguments unle : simpl never.
#[local] Opaque to_bytes from_bytes peek_pubkey.

(** The store agrees with the deliveries [L] on multisigs and mints. *)
Definition agrees (ts : tstore) (L : list tpa) : Prop :=
  (forall pk, ts_multi ts !! pk = multi_state L pk) /\
  (forall pk m, mint_state L pk = Some m <-> exists i, ts_mint_ix ts !! pk = Some i /\ ts_mints ts !! i = Some m).
Lemma agrees_empty : agrees ts_empty [].
Proof. split; [intros pk; by apply lookup_empty|]. intros pk m. split; [done|]. intros (i & H & _). simpl in H. by rewrite lookup_empty in H. Qed.
Lemma multi_state_snoc L a pk : multi_state (L ++ [a]) pk = multi_step pk (multi_state L pk) a.
Proof. unfold multi_state. by rewrite foldl_app. Qed.
Lemma mint_state_snoc L a pk : mint_state (L ++ [a]) pk = mint_step pk (mint_state L pk) a.
Proof. unfold mint_state. by rewrite foldl_app. Qed.
Lemma tok_state_snoc L a pk : tok_state (L ++ [a]) pk = tok_step pk (tok_state L pk) a.
Proof. unfold tok_state. by rewrite foldl_app. Qed.
Lemma agrees_same_fin E o ts ts1 L : same_fin E o ts ts1 -> agrees ts L -> agrees ts1 L.
Proof.
  intros [H1 H2 _ _ _ H6 H7] [Ha Hb]. split; [intros; by rewrite H2|]. intros pk m. rewrite Hb, H1. split.
  - intros (i & Hi & Hm). eauto.
  - intros (i & Hi & Hm). exists i. split; [|done]. destruct (ts_mint_ix ts !! pk) as [j|] eqn:Hj; [by apply H6 in Hj; congruence|].
    destruct (H7 _ _ Hi Hj). congruence.
Qed.
Lemma add_finalized_agrees ts a ts' L : tinv ts -> agrees ts L -> add_finalized ts a = Done ts' -> agrees ts' (L ++ [a]).
Proof.
  intros Hi [Ha Hb] H. pose proof (ti_ix _ Hi) as [Hinj Hlt]. destruct a as [t|m0|m0 pk0|pk0]; simpl in H.
  - unfold add_token in H. destruct (tb_save _ _) as [[[tb i] b]|]; [|done]. cbn [mbind res_bind] in H. injection H as <-.
    split; intros pk; rewrite ?multi_state_snoc; [destruct b; apply Ha|]. intros m. rewrite mint_state_snoc. simpl. destruct b; apply Hb.
  - destruct (ts_mint_ix ts !! ma_pubkey m0) as [i|] eqn:Hm; injection H as <-.
    + split; intros pk; rewrite ?multi_state_snoc; [apply Ha|]. intros m. rewrite mint_state_snoc. simpl. destruct (N.eqb_spec (ma_pubkey m0) pk) as [<-|Hne].
      * split; [intros [= <-]; exists i; by rewrite lookup_insert|]. intros (j & Hj & Hx). rewrite Hm in Hj. injection Hj as <-. by rewrite lookup_insert in Hx.
      * rewrite Hb. split; intros (j & Hj & Hx); exists j; (split; [done|]).
        -- rewrite lookup_insert_ne; [done|]. intros <-. by specialize (Hinj _ _ _ Hm Hj).
        -- rewrite lookup_insert_ne in Hx; [done|]. intros <-. by specialize (Hinj _ _ _ Hm Hj).
    + split; intros pk; rewrite ?multi_state_snoc; [apply Ha|]. intros m. rewrite mint_state_snoc. simpl. destruct (N.eqb_spec (ma_pubkey m0) pk) as [<-|Hne].
      * rewrite lookup_insert. split; [intros [= <-]; eexists; split; [done|]; by rewrite lookup_insert|].
        intros (j & [= <-] & Hx). by rewrite lookup_insert in Hx.
      * rewrite lookup_insert_ne by done. rewrite Hb. split; intros (j & Hj & Hx); exists j; (split; [done|]); pose proof (Hlt _ _ Hj).
        -- rewrite lookup_insert_ne; [done|lia].
        -- rewrite lookup_insert_ne in Hx; [done|lia].
  - injection H as <-. split; intros pk; rewrite ?multi_state_snoc; simpl.
    + destruct (N.eqb_spec pk0 pk) as [<-|Hne]; [by rewrite lookup_insert|by rewrite lookup_insert_ne].
    + intros m. rewrite mint_state_snoc. apply Hb.
  - destruct (ts_mint_ix ts !! pk0) as [i|] eqn:Hm.
    + injection H as <-. split; intros pk; rewrite ?multi_state_snoc; [apply Ha|]. intros m. rewrite mint_state_snoc. simpl. destruct (N.eqb_spec pk0 pk) as [<-|Hne].
      * split; [done|]. intros (j & Hj & _). by rewrite lookup_delete in Hj.
      * rewrite Hb. split; intros (j & Hj & Hx); exists j; [rewrite lookup_delete_ne by done|rewrite lookup_delete_ne in Hj by done]; (split; [done|]).
        -- rewrite lookup_delete_ne; [done|]. intros <-. by specialize (Hinj _ _ _ Hm Hj).
        -- rewrite lookup_delete_ne in Hx; [done|]. intros <-. by specialize (Hinj _ _ _ Hm Hj).
    + destruct (tb_delete _ _) as [tb|]; [|done]. cbn [mbind res_bind] in H. injection H as <-.
      split; intros pk; rewrite ?multi_state_snoc; [apply Ha|]. intros m. rewrite mint_state_snoc. simpl. destruct (N.eqb_spec pk0 pk) as [<-|Hne]; [|apply Hb].
      split; [done|]. intros (j & Hj & _). congruence.
Qed.

(** Going through a run one delivery at a time. *)
Lemma add_all_ind (P : tstore -> list tpa -> Prop) (Q : tpa -> Prop) :
  (forall ts a ts' L, tinv ts -> ts_ctr ts <= 2 ^ 32 -> tpa_ok (ts_ctr ts) a -> Q a -> P ts L -> add_finalized ts a = Done ts' -> P ts' (L ++ [a])) ->
  forall l ts ts' L, tinv ts -> Forall (tpa_ok (ts_ctr ts)) l -> Forall Q l -> add_all ts l = Done ts' -> ts_ctr ts' <= 2 ^ 32 -> P ts L -> P ts' (L ++ l).
Proof.
  intros Hstep l. induction l as [|a l IH]; intros ts ts' L Hi Hf HQ H Hc HP; simpl in H.
  - injection H as <-. by rewrite app_nil_r.
  - destruct (add_finalized ts a) as [ts1|] eqn:H1; [|done]. cbn [mbind res_bind] in H. pose proof (add_all_ctr _ _ _ H). pose proof (add_finalized_ctr _ _ _ H1).
    apply Forall_cons in Hf as [Ha Hf]. apply Forall_cons in HQ as [Hq HQ].
    destruct (add_finalized_inv ts a Hi Ha) as (ts2 & H2' & Hi2 & Hle & _); [lia|].
    rewrite H1 in H2'. injection H2' as <-. replace (L ++ a :: l) with ((L ++ [a]) ++ l) by (by rewrite <- app_assoc).
    eapply IH; [done| |done|done|done|]; [|apply (Hstep ts a ts1 L); [done|lia|done..]]. eapply Forall_impl; [exact Hf|]. intros x Hx. by eapply tpa_ok_mono.
Qed.
Lemma run_ind E X (P : tstore -> list tpa -> Prop) (O : tsop -> Prop) (Q : tpa -> Prop) :
  (forall ts o ts1 L, tinv ts -> op_ok o -> O o -> P ts L -> same_fin E o ts ts1 -> P ts1 L) ->
  (forall ts a ts' L, tinv ts -> ts_ctr ts <= 2 ^ 32 -> tpa_ok (ts_ctr ts) a -> Q a -> P ts L -> add_finalized ts a = Done ts' -> P ts' (L ++ [a])) ->
  forall l ts ts' L, ts_run E X ts l = Done ts' -> ops_ok l -> Forall O l -> Forall Q (ts_log E X ts l).*1 -> tinv ts -> ts_ctr ts' <= 2 ^ 32 -> P ts L ->
    P ts' (L ++ (ts_log E X ts l).*1).
Proof.
  intros Hsame Hstep l. induction l as [|o l IH]; intros ts ts' L H Hok HO HQ Hi Hc HP; cbn [ts_run ts_log] in H, HQ |- *.
  - injection H as <-. simpl. by rewrite app_nil_r.
  - apply Forall_cons in Hok as [Ho Hok], HO as [HO1 HO]. destruct (ts_step E X ts o) as [ts1|] eqn:H1; [|done]. cbn [mbind res_bind] in H.
    pose proof (run_ctr _ _ _ _ _ H Hok). assert (ts_ctr ts1 <= 2 ^ 32) as Hc1 by lia.
    pose proof (step_inv _ _ _ _ _ H1 Ho Hi Hc1) as Hi1.
    destruct (step_shape _ _ _ _ _ H1 Ho Hi Hc1) as (ts0 & Ha & Hi0 & Hsf & Hf).
    rewrite fmap_app in HQ. apply Forall_app in HQ as [HQ1 HQ2]. rewrite fmap_app, app_assoc.
    eapply IH; [done..|]. eapply add_all_ind; [exact Hstep|done|exact Hf|done|done|done|]. by apply (Hsame ts o ts0 L).
Qed.
Lemma run_agrees E X l ts : ts_run E X ts_empty l = Done ts -> ops_ok l -> ts_ctr ts <= 2 ^ 32 -> agrees ts (ts_log E X ts_empty l).*1.
Proof.
  intros H Hok Hc. apply (run_ind E X agrees (fun _ => True) (fun _ => True)) with (l := l) (ts := ts_empty) (L := []); try done.
  - intros ts0 o ts1 L _ _ _ Ha Hs. by eapply agrees_same_fin.
  - intros ts0 a ts1 L Hi _ _ _ Ha H1. by eapply add_finalized_agrees.
  - by apply Forall_true.
  - by apply Forall_true.
  - apply tinv_empty.
  - apply agrees_empty.
Qed.

(** ** Token accounts *)
(** The account the table holds for [pk]. *)
Definition holds (ts : tstore) (pk : pubkey) (o : option token_account) : Prop := forall t, o = Some t <-> exists i, at_pos (ts_table ts) pk i t.
Lemma holds_get ts pk o : tb_ok (ts_table ts) -> holds ts pk o -> tb_get (ts_table ts) pk = Done o.
Proof.
  intros Hok Ho. destruct (rep_exists (ts_table ts) Hok) as [m Hm]. rewrite (tb_get_spec _ m pk Hok Hm). f_equal.
  destruct (m !! pk) as [t|] eqn:Hp.
  - symmetry. apply Ho. by apply Hm.
  - destruct o as [t|]; [|done]. assert (m !! pk = Some t) by (by apply Hm, Ho). congruence.
Qed.
Definition closes_other (pk : pubkey) (a : tpa) : Prop := exists q, a = TPDeleted q /\ q <> pk /\ same_first4 q pk.
Lemma add_finalized_holds ts a ts' pk o : tinv ts -> ts_ctr ts <= 2 ^ 32 -> tpa_ok (ts_ctr ts) a -> ts_mint_ix ts !! pk = None -> ~ closes_other pk a ->
  holds ts pk o -> add_finalized ts a = Done ts' -> holds ts' pk (tok_step pk o a).
Proof.
  intros Hi Hc Hok Hix Hcl Ho H. destruct a as [t|m|m q|q]; simpl in H.
  - pose proof (tpa_ok_good _ _ Hok Hc) as Hg. unfold add_token in H.
    destruct (tb_save_spec _ t (ti_table _ Hi) Hg) as (tb1 & i1 & b1 & Hs1 & Htb & Hat & Hoth & _). rewrite Hs1 in H.
    cbn [mbind res_bind] in H. injection H as <-. assert (forall t', tok_step pk o (TPToken t) = Some t' <-> exists i, at_pos tb1 pk i t') as Hgoal.
    { intros t'. simpl. destruct (N.eqb_spec (ta_pubkey t) pk) as [<-|Hne].
      - split; [intros [= <-]; eauto|]. intros (j & Hj). f_equal. by destruct (at_pos_fun _ _ _ _ _ _ Htb Hat Hj).
      - rewrite (Ho t'). split; intros (j & Hj); exists j; apply Hoth; auto; by apply not_eq_sym. }
    intros t'. rewrite Hgoal. by destruct b1.
  - destruct (ts_mint_ix ts !! ma_pubkey m); injection H as <-; exact Ho.
  - by injection H as <-.
  - destruct (ts_mint_ix ts !! q) as [i|] eqn:Hq.
    + injection H as <-. simpl. destruct (N.eqb_spec q pk) as [->|Hne]; [congruence|]. exact Ho.
    + destruct (tb_delete_spec _ q (ti_table _ Hi)) as (tb & Hd & _ & Hat & _). rewrite Hd in H. cbn [mbind res_bind] in H. injection H as <-.
      intros t. simpl. destruct (N.eqb_spec q pk) as [->|Hne].
      * split; [done|]. intros (j & Hj). by apply Hat in Hj as [? _].
      * rewrite (Ho t). split; intros (j & Hj); exists j; [|by apply Hat in Hj as [_ ?]]. apply Hat. split; [|done]. intros He. apply Hcl. exists q.
        split; [done|]. split; [done|]. apply first4_prefix. done.
Qed.

Lemma add_finalized_pend ts a ts' : add_finalized ts a = Done ts' -> ts_pend ts' = ts_pend ts.
Proof.
  destruct a as [t|m|m pk|pk]; simpl; unfold add_token.
  - destruct (tb_save _ _) as [[[tb i] b]|]; [|done]. simpl. by destruct b; intros [= <-].
  - by destruct (_ !! _); intros [= <-].
  - by intros [= <-].
  - destruct (_ !! _); [by intros [= <-]|]. destruct (tb_delete _ _); [|done]. by intros [= <-].
Qed.
Lemma add_all_pend l ts ts' : add_all ts l = Done ts' -> ts_pend ts' = ts_pend ts.
Proof.
  revert ts. induction l as [|a l IH]; intros ts; simpl; [by intros [= ->]|]. destruct (add_finalized ts a) as [ts1|] eqn:H1; [|done].
  cbn [mbind res_bind]. intros H. apply IH in H. apply add_finalized_pend in H1. congruence.
Qed.
(** ** Where deliveries and pending versions come from *)
Definition comes_from (E : ext) (o : tsop) (x : tpa) : Prop :=
  exists a ix ctr ix' ctr', op_acct o = Some a /\ d_pubkey a < 2 ^ 256 /\ ix_ok ix ctr /\ account_type E a ix ctr = Done (Some (x, ix', ctr')).
Definition comes_now (E : ext) (ts ts' : tstore) (o : tsop) (x : tpa) : Prop :=
  exists a ix' ctr', op_acct o = Some a /\ d_pubkey a < 2 ^ 256 /\
    account_type E a (ts_mint_ix ts) (ts_ctr ts) = Done (Some (x, ix', ctr')) /\
    forall p i t, ix' !! p = Some i -> x = TPToken t -> ts_mint_ix ts' !! p = Some i.
Lemma comes_now_from E ts ts' o x : tinv ts -> comes_now E ts ts' o x -> comes_from E o x.
Proof. intros Hi (a & ix' & ctr' & Ho & Hp & Ht & _). exists a, (ts_mint_ix ts), (ts_ctr ts), ix', ctr'. split; [done|]. split; [done|]. split; [apply (ti_ix _ Hi)|done]. Qed.
Lemma add_finalized_token_ix ts t ts' : add_finalized ts (TPToken t) = Done ts' -> ts_mint_ix ts' = ts_mint_ix ts.
Proof. simpl. unfold add_token. destruct (tb_save _ _) as [[[tb i] b]|]; [|done]. cbn [mbind res_bind]. intros [= <-]. by destruct b. Qed.
Lemma step_origin_now E X ts o ts' : ts_step E X ts o = Done ts' -> op_ok o -> tinv ts -> ts_ctr ts' <= 2 ^ 32 ->
  (forall s pk v, version (ts_pend ts') s pk v -> version (ts_pend ts) s pk v \/ (comes_now E ts ts' o v.1 /\ op_pends o)) /\
  (forall x, x ∈ (deliveries E ts o).*1 -> (exists s pk v, version (ts_pend ts) s pk v /\ v.1 = x) \/ comes_now E ts ts' o x).
Proof.
  intros H Hok Hi Hc. destruct o as [a c|a|ord si c|p b]; simpl in H, Hok; [| | |done].
  - unfold ts_update in H. cbn [deliveries]. unfold accepted. destruct (is_token ts a) as [[]|]; [|injection H as <-|done].
    2:{ split; [eauto|]. destruct c; simpl; intros x Hx; by apply elem_of_nil in Hx. }
    cbn [mbind res_bind] in H. destruct (account_type _ _ _ _) as [[[[ty ix] ctr]|]|] eqn:Ht; [|injection H as <-|done].
    2:{ split; [eauto|]. destruct c; simpl; intros x Hx; by apply elem_of_nil in Hx. }
    cbn [mbind res_bind] in H.
    assert (forall tsx, (forall t, ty = TPToken t -> ts_mint_ix tsx = ix) -> comes_now E ts tsx (TUpdate a c) ty) as Hcf.
    { intros tsx Hix. exists a, ix, ctr. split; [done|]. split; [done|]. split; [done|]. intros p i t Hp Hx. by rewrite (Hix t Hx). }
    assert (forall s pk v, version (pd_insert (ts_pend ts) (d_pubkey a) ty (d_wv a) (d_slot a)).1 s pk v -> version (ts_pend ts) s pk v \/ v.1 = ty) as Hpd.
    { intros s pk v Hv. apply (insert_version _ (d_pubkey a) ty (d_wv a) (d_slot a) s pk v (ti_sorted _ Hi)) in Hv.
      destruct (decide _) as [[-> ->]|Hne]; [destruct Hv as [[-> _]|[Hv _]]|]; eauto. }
    destruct c.
    + cbn [set_ix ts_pend] in H. destruct (pd_insert _ _ _ _ _) as [p b0] eqn:Hpi. injection H as <-. split; [|intros x Hx; by apply elem_of_nil in Hx].
      intros s pk v Hv. destruct (Hpd s pk v Hv) as [?| ->]; [by left|right]. split; [by apply Hcf|done].
    + cbn [set_ix ts_pend] in H. destruct (pd_insert _ _ _ _ _) as [p b0] eqn:Hpi. injection H as <-. split; [|intros x Hx; by apply elem_of_nil in Hx].
      intros s pk v Hv. destruct (Hpd s pk v Hv) as [?| ->]; [by left|right]. split; [by apply Hcf|done].
    + destruct (add_finalized _ ty) as [ts1|] eqn:H1; [|done]. cbn [mbind res_bind] in H. injection H as <-. split.
      * intros s pk v Hv. left. apply add_finalized_pend in H1. by rewrite H1 in Hv.
      * intros x Hx. apply elem_of_list_singleton in Hx as ->. right. apply Hcf. intros t ->. by apply add_finalized_token_ix in H1.
  - unfold ts_init in H. cbn [deliveries]. unfold accepted. destruct (is_token ts a) as [[]|]; [|injection H as <-|done].
    2:{ split; [eauto|]. simpl; intros x Hx; by apply elem_of_nil in Hx. }
    cbn [mbind res_bind] in H. destruct (account_type _ _ _ _) as [[[[ty ix] ctr]|]|] eqn:Ht; [|injection H as <-|done].
    2:{ split; [eauto|]. simpl; intros x Hx; by apply elem_of_nil in Hx. }
    cbn [mbind res_bind] in H.
    assert (forall tsx, (forall t, ty = TPToken t -> ts_mint_ix tsx = ix) -> comes_now E ts tsx (TInit a) ty) as Hcf.
    { intros tsx Hix. exists a, ix, ctr. split; [done|]. split; [done|]. split; [done|]. intros p i t Hp Hx. by rewrite (Hix t Hx). }
    split.
    * intros s pk v Hv. left. apply add_finalized_pend in H. by rewrite H in Hv.
    * intros x Hx. apply elem_of_list_singleton in Hx as ->. right. apply Hcf. intros t ->. by apply add_finalized_token_ix in H.
  - unfold ts_slot in H. destruct c; cbn [deliveries].
    + cbn [mbind res_bind] in H. injection H as <-. split; [|intros x Hx; by apply elem_of_nil in Hx].
      intros s pk v Hv. left. by apply (slot_info_version _ _ _ _ _ (ti_sorted _ Hi)) in Hv.
    + set (ts1 := if ts_conf ts <? si_slot si then _ else _) in H. destruct (pd_for_slot _ _ _) as [[p l]|] eqn:Hfs; [|done]. cbn [mbind res_bind] in H. injection H as <-.
      apply pd_for_slot_pend in Hfs. split; [|intros x Hx; by apply elem_of_nil in Hx].
      assert (sm_sorted (ts_pend ts1) /\ forall s pk v, version (ts_pend ts1) s pk v -> version (ts_pend ts) s pk v) as [Hs1 Hv1].
      { unfold ts1. destruct (_ <? _); [|split; [apply ti_sorted, Hi|done]]. split; [apply pd_slot_info_sorted, ti_sorted, Hi|].
        intros s pk v Hv. by apply (slot_info_version _ _ _ _ _ (ti_sorted _ Hi)) in Hv. }
      intros s pk v Hv. left. apply Hv1. subst p. simpl in Hv. destruct (sm_get _ _); [done|]. by apply (slot_info_version _ _ _ _ _ Hs1) in Hv.
    + set (p0 := if ts_fin ts <? si_slot si then pd_slot_info (ts_pend ts) si else ts_pend ts).
      set (ts1 := if ts_fin ts <? si_slot si then _ else _) in H. assert (ts_pend ts1 = p0) as Hp0.
      { unfold ts1, p0. by destruct (_ <? _). }
      rewrite Hp0 in H. assert (sm_sorted p0 /\ forall s pk v, version p0 s pk v -> version (ts_pend ts) s pk v) as [Hs1 Hv0].
      { unfold p0. destruct (_ <? _); [|split; [apply ti_sorted, Hi|done]]. split; [apply pd_slot_info_sorted, ti_sorted, Hi|].
        intros s pk v Hv. by apply (slot_info_version _ _ _ _ _ (ti_sorted _ Hi)) in Hv. }
      destruct (finalize_versions p0 (si_slot si) Hs1) as (Hs2 & Hv1 & Hv2).
      destruct (pd_finalize p0 (si_slot si)) as [p m]. simpl in *.
      destruct (to_accts _ _) as [r|]; [|done]. cbn [mbind res_bind] in H. destruct (add_all _ _) as [ts2|] eqn:H2; [|done].
      cbn [mbind res_bind] in H. injection H as <-. split.
      * intros s pk v Hv. left. apply Hv0, Hv1. apply add_all_pend in H2. by rewrite H2 in Hv.
      * intros x Hx. left. apply elem_of_list_fmap in Hx as ([v s] & -> & Hx). apply elem_of_list_fmap in Hx as ([pk [v' s']] & [= -> ->] & Hx).
        rewrite (Hok m) in Hx. apply elem_of_map_to_list in Hx. apply Hv2 in Hx. exists s', pk, v'. auto.
Qed.
Lemma step_origin E X ts o ts' : ts_step E X ts o = Done ts' -> op_ok o -> tinv ts -> ts_ctr ts' <= 2 ^ 32 ->
  (forall s pk v, version (ts_pend ts') s pk v -> version (ts_pend ts) s pk v \/ (comes_from E o v.1 /\ op_pends o)) /\
  (forall x, x ∈ (deliveries E ts o).*1 -> (exists s pk v, version (ts_pend ts) s pk v /\ v.1 = x) \/ comes_from E o x).
Proof.
  intros H Hok Hi Hc. destruct (step_origin_now _ _ _ _ _ H Hok Hi Hc) as [H1 H2]. split.
  - intros s pk v Hv. destruct (H1 s pk v Hv) as [?|[Hn ?]]; [by left|right]. split; [|done]. by eapply comes_now_from.
  - intros x Hx. destruct (H2 x Hx) as [?|Hn]; [by left|right]. by eapply comes_now_from.
Qed.

Lemma run_origin E X l0 l ts ts' : ts_run E X ts l = Done ts' -> ops_ok l -> tinv ts -> ts_ctr ts' <= 2 ^ 32 ->
  (forall s pk v, version (ts_pend ts) s pk v -> exists o, o ∈ l0 /\ comes_from E o v.1 /\ op_pends o) ->
  (forall s pk v, version (ts_pend ts') s pk v -> exists o, o ∈ l0 ++ l /\ comes_from E o v.1 /\ op_pends o) /\
  (forall x, x ∈ (ts_log E X ts l).*1 -> exists o, (o ∈ l \/ (o ∈ l0 /\ op_pends o)) /\ comes_from E o x).
Proof.
  revert l0 ts. induction l as [|o l IH]; intros l0 ts H Hok Hi Hc Hp; cbn [ts_run ts_log] in H |- *.
  - injection H as <-. rewrite app_nil_r. split; [done|]. intros x Hx. by apply elem_of_nil in Hx.
  - apply Forall_cons in Hok as [Ho Hok]. destruct (ts_step E X ts o) as [ts1|] eqn:H1; [|done]. cbn [mbind res_bind] in H.
    pose proof (run_ctr _ _ _ _ _ H Hok). assert (ts_ctr ts1 <= 2 ^ 32) as Hc1 by lia.
    pose proof (step_inv _ _ _ _ _ H1 Ho Hi Hc1) as Hi1.
    destruct (step_origin _ _ _ _ _ H1 Ho Hi Hc1) as [Hv Hd].
    destruct (IH (l0 ++ [o]) ts1 H Hok Hi1 Hc) as [IH1 IH2].
    { intros s pk v Hx. destruct (Hv s pk v Hx) as [Hy|Hy].
      - destruct (Hp s pk v Hy) as (o' & ? & ? & ?). exists o'. split; [|done]. apply elem_of_app. by left.
      - exists o. split; [|done]. apply elem_of_app. right. by apply elem_of_list_singleton. }
    rewrite <- app_assoc in IH1. split; [done|]. intros x Hx. rewrite fmap_app in Hx. apply elem_of_app in Hx as [Hx|Hx].
    + destruct (Hd x Hx) as [(s & pk & v & Hy & <-)|Hy].
      * destruct (Hp s pk v Hy) as (o' & ? & ? & ?). exists o'. auto.
      * exists o. split; [|done]. left. left.
    + destruct (IH2 x Hx) as (o' & [Ho'|[Ho' Hpo]] & Hcf); exists o'; (split; [|done]).
      * left. by right.
      * apply elem_of_app in Ho' as [Ho'|Ho'%elem_of_list_singleton]; [auto|]. subst o'. left. left.
Qed.
Lemma log_origin E X l ts : ts_run E X ts_empty l = Done ts -> ops_ok l -> ts_ctr ts <= 2 ^ 32 ->
  forall x, x ∈ (ts_log E X ts_empty l).*1 -> exists o, o ∈ l /\ comes_from E o x.
Proof.
  intros H Hok Hc x Hx. destruct (run_origin E X [] l ts_empty ts H Hok tinv_empty Hc) as [_ Ho].
  - intros s pk v (b & Hb & _). by apply elem_of_nil in Hb.
  - destruct (Ho x Hx) as (o & [?|[Hn _]] & ?); [eauto|by apply elem_of_nil in Hn].
Qed.
Lemma comes_deleted E o q : comes_from E o (TPDeleted q) -> exists a, op_acct o = Some a /\ d_pubkey a = q.
Proof.
  intros (a & ix & ctr & ix' & ctr' & Ho & Hp & Hix & Ht). exists a. split; [done|]. destruct (accepted_ok _ _ _ _ _ _ _ Ht Hp Hix) as (_ & _ & _ & Hk & _). by symmetry.
Qed.
Lemma comes_mint E o m : comes_from E o (TPMint m) -> op_mint E o (ma_pubkey m).
Proof.
  intros (a & ix & ctr & ix' & ctr' & Ho & Hp & Hix & Ht). destruct (accepted_ok _ _ _ _ _ _ _ Ht Hp Hix) as (_ & _ & _ & Hk & _).
  apply account_type_inv in Ht as [(? & _)|[Hl (p & v & Hw & Hv & [(m' & x & Hu & _)|[(m' & Hu & ? & _)|(s & i & Hu & Hmi & ?)]])]]; try done.
  exists a, v. split; [done|]. split; [by symmetry|]. split; [done|]. by eexists.
Qed.

(** ** The token account of a key, when no mint has that key and no other account its first four bytes *)
Definition not_mint (E : ext) (l : list tsop) (pk : pubkey) : Prop := forall o, o ∈ l -> ~ op_names E o pk /\ ~ op_mint E o pk.
Definition no_collision (l : list tsop) (pk : pubkey) : Prop := forall o, o ∈ l -> ~ op_collides o pk.
Lemma run_holds E X l ts pk : ts_run E X ts_empty l = Done ts -> ops_ok l -> ts_ctr ts <= 2 ^ 32 -> not_mint E l pk -> no_collision l pk ->
  ts_mint_ix ts !! pk = None /\ holds ts pk (tok_state (ts_log E X ts_empty l).*1 pk).
Proof.
  intros H Hok Hc Hnm Hnc.
  apply (run_ind E X (fun ts L => ts_mint_ix ts !! pk = None /\ holds ts pk (tok_state L pk)) (fun o => ~ op_names E o pk)
           (fun x => ~ closes_other pk x /\ forall m, x = TPMint m -> ma_pubkey m <> pk)) with (l := l) (ts := ts_empty) (L := []); try done.
  - intros ts0 o ts1 L _ _ Hn [Hx Hh] Hs. split.
    + destruct (ts_mint_ix ts1 !! pk) as [i|] eqn:Hi; [|done]. by destruct (sf_new _ _ _ _ Hs _ _ Hi Hx).
    + intros t. rewrite (sf_table _ _ _ _ Hs). apply Hh.
  - intros ts0 a ts1 L Hi Hc0 Ha [Hq1 Hq2] [Hx Hh] H1. split.
    + destruct a as [t|m|m q|q]; simpl in H1.
      * unfold add_token in H1. destruct (tb_save _ _) as [[[tb i] b]|]; [|done]. cbn [mbind res_bind] in H1. injection H1 as <-. by destruct b.
      * destruct (ts_mint_ix ts0 !! ma_pubkey m); injection H1 as <-; [done|]. simpl. rewrite lookup_insert_ne; [done|]. by apply Hq2.
      * by injection H1 as <-.
      * destruct (ts_mint_ix ts0 !! q); [injection H1 as <-; simpl; apply lookup_delete_None; by right|]. destruct (tb_delete _ _); [|done]. by injection H1 as <-.
    + rewrite tok_state_snoc. by eapply add_finalized_holds.
  - apply Forall_forall. intros o Ho. by apply Hnm.
  - apply Forall_forall. intros x Hx. destruct (log_origin _ _ _ _ H Hok Hc x Hx) as (o & Ho & Hcf). split.
    + intros (q & -> & Hne & Hf). apply comes_deleted in Hcf as (a & Ha & <-). apply (Hnc o Ho). by exists a.
    + intros m -> <-. apply comes_mint in Hcf. by apply (Hnm o Ho).
  - apply tinv_empty.
  - split; [done|]. intros t. split; [done|]. intros (i & _ & _ & ixs & Hk & _). simpl in Hk. by rewrite lookup_empty in Hk.
Qed.

Lemma pend_origin E X l ts : ts_run E X ts_empty l = Done ts -> ops_ok l -> ts_ctr ts <= 2 ^ 32 ->
  forall s pk v, version (ts_pend ts) s pk v -> exists o, o ∈ l /\ comes_from E o v.1 /\ op_pends o.
Proof.
  intros H Hok Hc. apply (run_origin E X [] l ts_empty ts H Hok tinv_empty Hc). intros s pk v (b & Hb & _). by apply elem_of_nil in Hb.
Qed.
Lemma comes_pubkey E o x : comes_from E o x -> op_about o (tpa_pubkey x).
Proof.
  intros (a & ix & ctr & ix' & ctr' & Ho & Hp & Hix & Ht). exists a. split; [done|]. destruct (accepted_ok _ _ _ _ _ _ _ Ht Hp Hix) as (_ & _ & _ & Hk & _). by symmetry.
Qed.
Lemma comes_closes E o q : comes_from E o (TPDeleted q) -> op_closes o q.
Proof.
  intros (a & ix & ctr & ix' & ctr' & Ho & Hp & Hix & Ht). exists a. split; [done|].
  destruct (accepted_ok _ _ _ _ _ _ _ Ht Hp Hix) as (_ & _ & _ & Hk & _). simpl in Hk. split; [by symmetry|].
  destruct (decide (d_lamports a = 0)) as [|Hl]; [by left|]. right. destruct (decide (d_owner a = spl_token_id)) as [He|Hn1]; [|destruct (decide (d_owner a = spl_2022_id)) as [He|Hn2]].
  3: done.
  - exfalso. revert Ht. unfold account_type. apply N.eqb_neq in Hl. rewrite Hl, He. simpl. destruct (data_bytes _ _) as [v|]; [|done]. cbn [mbind res_bind].
    destruct (_ =? 82); [destruct (unpack_mint v); done|]. destruct (_ =? 165); [destruct (unpack_account v) as [s|]; [|done]; by destruct (mint_index _ _ _) as [[? ?] ?]|].
    destruct (unpack_multisig v); done.
  - exfalso. revert Ht. unfold account_type. apply N.eqb_neq in Hl. rewrite Hl, He. simpl. destruct (data_bytes _ _) as [v|]; [|done]. cbn [mbind res_bind].
    destruct (_ =? 82); [destruct (unpack_mint v); done|]. destruct (_ =? 165); [destruct (unpack_account v) as [s|]; [|done]; by destruct (mint_index _ _ _) as [[? ?] ?]|].
    destruct (_ =? 355); [destruct (unpack_multisig v); done|]. destruct (165 <? _); [|done]. destruct (v !! 165%nat); [|done]. cbn [unwrap mbind res_bind].
    destruct (_ =? 1); [destruct (unpack_mint v); done|]. destruct (_ =? 2); [|done]. destruct (unpack_account v) as [s|]; [|done]; by destruct (mint_index _ _ _) as [[? ?] ?].
Qed.
Lemma comes_multi E o m q : comes_from E o (TPMulti m q) -> op_multi E o q.
Proof.
  intros (a & ix & ctr & ix' & ctr' & Ho & Hp & Hix & Ht). destruct (accepted_ok _ _ _ _ _ _ _ Ht Hp Hix) as (_ & _ & _ & Hk & _).
  apply account_type_inv in Ht as [(? & _)|[Hl (p & v & Hw & Hv & [(m' & x & Hu & ? & _)|[(m' & Hu & ? & _)|(s & i & Hu & Hmi & ?)]])]]; try done.
  exists a, v. split; [done|]. split; [by symmetry|]. split; [done|]. by eexists.
Qed.
Lemma multi_state_none L pk : (forall m, TPMulti m pk ∉ L) -> multi_state L pk = None.
Proof.
  induction L as [|a L IH] using rev_ind; intros H; [done|]. rewrite multi_state_snoc, IH.
  - destruct a; try done. simpl. destruct (N.eqb_spec pk0 pk) as [->|]; [|done]. exfalso. apply (H m). set_solver.
  - intros m Hm. apply (H m). set_solver.
Qed.
Lemma tok_state_app L1 L2 pk : (forall x, x ∈ L2 -> tpa_pubkey x <> pk) -> tok_state (L1 ++ L2) pk = tok_state L1 pk.
Proof.
  induction L2 as [|a L2 IH] using rev_ind; intros H; [by rewrite app_nil_r|]. rewrite app_assoc, tok_state_snoc, IH by set_solver.
  assert (tpa_pubkey a <> pk) by (apply H; set_solver). destruct a; simpl in *; try done; by destruct (N.eqb_spec (ta_pubkey t) pk) || destruct (N.eqb_spec pk0 pk).
Qed.

(** A mint that is never closed keeps its index. *)
Lemma run_ix_keep E X l ts ts' q i : ts_run E X ts l = Done ts' -> ops_ok l -> tinv ts -> ts_ctr ts' <= 2 ^ 32 ->
  (forall x, x ∈ (ts_log E X ts l).*1 -> x <> TPDeleted q) -> ts_mint_ix ts !! q = Some i -> ts_mint_ix ts' !! q = Some i.
Proof.
  intros H Hok Hi Hc Hn Hq.
  apply (run_ind E X (fun ts _ => ts_mint_ix ts !! q = Some i) (fun o => True) (fun x => x <> TPDeleted q)) with (l := l) (ts := ts) (L := []); try done.
  - intros ts0 o ts1 L _ _ _ Hx Hs. by apply (sf_ix _ _ _ _ Hs).
  - intros ts0 a ts1 L Hi0 Hc0 Ha Hne Hx H1. destruct a as [t|m|m r|r]; simpl in H1.
    + unfold add_token in H1. destruct (tb_save _ _) as [[[tb j] b]|]; [|done]. cbn [mbind res_bind] in H1. injection H1 as <-. by destruct b.
    + destruct (ts_mint_ix ts0 !! ma_pubkey m) eqn:Hm; injection H1 as <-; [done|]. simpl. rewrite lookup_insert_ne; congruence.
    + by injection H1 as <-.
    + destruct (ts_mint_ix ts0 !! r) eqn:Hr; [injection H1 as <-; simpl; rewrite lookup_delete_ne; congruence|]. destruct (tb_delete _ _); [|done]. by injection H1 as <-.
  - by apply Forall_true.
  - by apply Forall_forall.
Qed.
Lemma run_app E X l1 l2 ts ts' : ts_run E X ts (l1 ++ l2) = Done ts' -> exists ts1, ts_run E X ts l1 = Done ts1 /\ ts_run E X ts1 l2 = Done ts'.
Proof.
  revert ts. induction l1 as [|o l1 IH]; intros ts H; simpl in H |- *; [eauto|]. destruct (ts_step E X ts o) as [ts1|]; [|done]. cbn [mbind res_bind] in *. auto.
Qed.
Lemma run_app_done E X l1 l2 ts ts1 : ts_run E X ts l1 = Done ts1 -> ts_run E X ts (l1 ++ l2) = ts_run E X ts1 l2.
Proof.
  revert ts. induction l1 as [|o l1 IH]; intros ts H; simpl in H |- *; [by injection H as <-|]. destruct (ts_step E X ts o) as [ts2|]; [|done]. cbn [mbind res_bind] in *. auto.
Qed.
Lemma log_app E X l1 l2 ts ts1 : ts_run E X ts l1 = Done ts1 -> ts_log E X ts (l1 ++ l2) = ts_log E X ts l1 ++ ts_log E X ts1 l2.
Proof.
  revert ts. induction l1 as [|o l1 IH]; intros ts H; simpl in H |- *; [by injection H as <-|]. destruct (ts_step E X ts o) as [ts2|]; [|done]. cbn [mbind res_bind] in *.
  by rewrite (IH ts2 H), app_assoc.
Qed.
