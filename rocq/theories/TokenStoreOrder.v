(** Finalized token state and slot order (C47). *)
From Verif Require Import Base SMap DataModel BincodeModel BincodeProofs FilterModel StoreModel TokenModel TokenProofs TokenProps SplModel SplProofs TokenUtilsModel
  TokenUtilsProofs TokenPendModel TokenPendSpec TokenPendProofs TokenPendProps TokenUtilsProps TokenStoreModel TokenStoreSpec TokenStoreProofs TokenStoreViews TokenStoreProps.
#[local] Arguments le : simpl never.
#[local] Arguments unle : simpl never.
#[local] Opaque to_bytes from_bytes peek_pubkey.

(** Pending versions are newer than the last finalized slot. *)
Definition pinv (ts : tstore) : Prop := parents_before (ts_pend ts) /\ forall s pk v, version (ts_pend ts) s pk v -> ts_fin ts < s.
Lemma add_finalized_fin ts a ts' : add_finalized ts a = Done ts' -> ts_fin ts' = ts_fin ts.
Proof.
  destruct a as [t|m|m pk|pk]; simpl; unfold add_token.
  - destruct (tb_save _ _) as [[[tb i] b]|]; [|done]. simpl. by destruct b; intros [= <-].
  - by destruct (_ !! _); intros [= <-].
  - by intros [= <-].
  - destruct (_ !! _); [by intros [= <-]|]. destruct (tb_delete _ _); [|done]. by intros [= <-].
Qed.
Lemma add_all_fin l ts ts' : add_all ts l = Done ts' -> ts_fin ts' = ts_fin ts.
Proof.
  revert ts. induction l as [|a l IH]; intros ts; simpl; [by intros [= ->]|]. destruct (add_finalized ts a) as [ts1|] eqn:H1; [|done].
  cbn [mbind res_bind]. intros H. apply IH in H. apply add_finalized_fin in H1. congruence.
Qed.
Lemma info_before p si : sm_sorted p -> parents_before p -> si_parent si < si_slot si -> parents_before (pd_slot_info p si).
Proof.
  intros Hs Hp Hlt s s' H. apply (slot_info_parent _ _ _ _ Hs) in H. destruct (decide _) as [->|]; [by destruct H as [_ ->]|by apply Hp].
Qed.
Lemma parent_sub p p' : sm_sorted p -> sm_sorted p' -> (forall k, sm_get k p' = sm_get k p \/ sm_get k p' = None) -> forall s s', parent p' s s' -> parent p s s'.
Proof.
  intros Hs Hs' H s s' Hp. apply (parent_get _ Hs') in Hp as (b & Hb & Hp). apply (parent_get _ Hs). exists b. split; [|done]. destruct (H s); congruence.
Qed.
Definition op_in_order (f : N) (o : tsop) : Prop :=
  match o with TUpdate a c => c <> Finalized /\ f < d_slot a | TSlot _ si _ => si_parent si < si_slot si | _ => False end.
Lemma step_order E X ts o ts' : ts_step E X ts o = Done ts' -> op_ok o -> tinv ts -> pinv ts -> op_in_order (ts_fin ts) o ->
  pinv ts' /\ ts_fin ts' = match o with TSlot _ si Finalized => N.max (ts_fin ts) (si_slot si) | _ => ts_fin ts end /\
  (forall x, x ∈ deliveries E ts o -> exists s, x.2 = Some s /\ ts_fin ts < s <= ts_fin ts') /\
  NoDup ((fun x => tpa_pubkey x.1) <$> deliveries E ts o).
Proof.
  intros H Hok Hi [Hpb Hv] Hord. pose proof (ti_sorted _ Hi) as Hs. destruct o as [a c|a|ord si c|p b]; simpl in H, Hok; [|done| |done].
  - simpl in Hord. destruct Hord as [Hcf Hsl].
    assert (deliveries E ts (TUpdate a c) = []) as -> by (by destruct c).
    assert (forall ts', pinv ts' -> ts_fin ts' = ts_fin ts -> pinv ts' /\ ts_fin ts' = ts_fin ts /\ (forall x, x ∈ ([] : list (tpa * option N)) -> exists s, x.2 = Some s /\ ts_fin ts < s <= ts_fin ts') /\
       NoDup ((fun x => tpa_pubkey x.1) <$> ([] : list (tpa * option N)))) as Hgoal.
    { intros ts0 Hp Hf. split; [done|]. split; [done|]. split; [intros x Hx; by apply elem_of_nil in Hx|constructor]. }
    unfold ts_update in H. destruct (is_token ts a) as [[]|]; [|injection H as <-; by apply Hgoal|done].
    cbn [mbind res_bind] in H. destruct (account_type _ _ _ _) as [[[[ty ix] ctr]|]|] eqn:Ht; [|injection H as <-; by apply Hgoal|done].
    cbn [mbind res_bind] in H. assert (pinv (set_pend (set_ix ts ix ctr) (pd_insert (ts_pend (set_ix ts ix ctr)) (d_pubkey a) ty (d_wv a) (d_slot a)).1)) as Hp1.
    { split; simpl.
      - intros s s' Hp. apply (insert_parent _ _ _ _ _ _ _ Hs) in Hp. by apply Hpb.
      - intros s pk v Hx. apply (insert_version _ _ _ _ _ _ _ _ Hs) in Hx. destruct (decide _) as [[-> ->]|]; [lia|by apply (Hv s pk v)]. }
    destruct c; [| |done]; destruct (pd_insert _ _ _ _ _) as [p b0]; injection H as <-; by apply Hgoal.
  - simpl in Hord. pose proof (info_before _ _ Hs Hpb Hord) as Hpb'. pose proof (pd_slot_info_sorted _ si Hs) as Hs'.
    assert (forall s pk v, version (pd_slot_info (ts_pend ts) si) s pk v -> ts_fin ts < s) as Hv'.
    { intros s pk v Hx. apply (slot_info_version _ _ _ _ _ Hs) in Hx. by apply (Hv s pk v). }
    unfold ts_slot in H. destruct c; cbn [deliveries].
    + cbn [mbind res_bind] in H. injection H as <-. split; [done|]. split; [done|]. split; [intros x Hx; by apply elem_of_nil in Hx|constructor].
    + set (ts1 := if ts_conf ts <? si_slot si then _ else _) in H. destruct (pd_for_slot _ _ _) as [[p l]|] eqn:Hfs; [|done]. cbn [mbind res_bind] in H. injection H as <-.
      apply pd_for_slot_pend in Hfs. split; [|split; [unfold ts1; by destruct (_ <? _)|split; [intros x Hx; by apply elem_of_nil in Hx|constructor]]].
      assert (pinv ts1 /\ sm_sorted (ts_pend ts1)) as [[Hb1 Hv1] Hs1]. { unfold ts1. by destruct (_ <? _). }
      subst p. destruct (sm_get _ _); [done|]. split; simpl.
      * by apply info_before.
      * intros s pk v Hx. apply (slot_info_version _ _ _ _ _ Hs1) in Hx. by apply (Hv1 s pk v).
    + set (p0 := if ts_fin ts <? si_slot si then pd_slot_info (ts_pend ts) si else ts_pend ts).
      set (ts1 := if ts_fin ts <? si_slot si then _ else _) in H. assert (ts_pend ts1 = p0 /\ ts_fin ts1 = N.max (ts_fin ts) (si_slot si)) as [Hp0 Hf1].
      { unfold ts1, p0. destruct (N.ltb_spec (ts_fin ts) (si_slot si)); simpl; split; try done; lia. }
      rewrite Hp0 in H. assert (sm_sorted p0 /\ parents_before p0 /\ forall s pk v, version p0 s pk v -> version (ts_pend ts) s pk v) as (Hs1 & Hb0 & Hv0).
      { unfold p0. destruct (_ <? _); [|done]. split; [done|]. split; [done|]. intros s pk v Hx. by apply (slot_info_version _ _ _ _ _ Hs) in Hx. }
      destruct (finalize_spec p0 (si_slot si) Hs1) as (Hs2 & Hm & Hget & Hnone).
      destruct (finalize_versions p0 (si_slot si) Hs1) as (_ & Hv1 & Hv2).
      destruct (pd_finalize p0 (si_slot si)) as [p m]. simpl in Hs2, Hm, Hget, Hnone, Hv1, Hv2 |- *.
      destruct (to_accts _ _) as [r|]; [|done]. cbn [mbind res_bind] in H. destruct (add_all _ _) as [ts2|] eqn:H2; [|done].
      cbn [mbind res_bind] in H. injection H as <-. pose proof (add_all_fin _ _ _ H2) as Hf2. pose proof (add_all_pend _ _ _ H2) as Hp2. simpl in Hf2, Hp2.
      assert (ts_fin ts2 = N.max (ts_fin ts) (si_slot si)) as Hfin by congruence.
      split; [|split; [done|split]].
      * unfold pinv. rewrite Hp2. split.
        -- intros s s' Hp. apply Hb0. by apply (parent_sub p0 p).
        -- intros s pk v Hx. pose proof (Hv0 _ _ _ (Hv1 _ _ _ Hx)) as Hx'. apply (version_get _ Hs2) in Hx as (b & Hb & _). apply Hv in Hx'.
           destruct (decide (s <= si_slot si)) as [Hle|]; [|lia]. assert (sm_get s p = None) by (apply Hnone; auto). congruence.
      * intros x Hx. apply elem_of_list_fmap in Hx as ([pk [v s]] & -> & Hx). rewrite (Hok m) in Hx. apply elem_of_map_to_list in Hx.
        exists s. split; [done|]. pose proof (Hv0 _ _ _ (Hv2 _ _ _ Hx)) as Hx'. apply Hv in Hx'. apply Hm, nearest_chain in Hx as [Hx _].
        apply (chain_le _ _ _ Hb0) in Hx. simpl in Hx. lia.
      * rewrite <- list_fmap_compose. assert (((fun x => tpa_pubkey x.1) ∘ (fun x : pubkey * (pacct * N) => (x.2.1.1, Some x.2.2))) <$> ord m = fst <$> ord m) as ->.
        { apply Forall_fmap_ext_1, Forall_forall. intros [pk [v s]] Hx. rewrite (Hok m) in Hx. apply elem_of_map_to_list in Hx. apply Hv2, Hv0 in Hx. simpl.
          by destruct (ti_pend _ Hi _ _ _ Hx). }
        rewrite (Hok m). apply NoDup_fst_map_to_list.
Qed.
Definition fin_from (f : N) (l : list tsop) : N := foldl (fun f o => match o with TSlot _ si Finalized => N.max f (si_slot si) | _ => f end) f l.
Definition order_from (f : N) (l : list tsop) : Prop := forall l1 o l2, l = l1 ++ o :: l2 -> op_in_order (fin_from f l1) o.
Lemma run_order E X l ts ts' : ts_run E X ts l = Done ts' -> ops_ok l -> tinv ts -> ts_ctr ts' <= 2 ^ 32 -> pinv ts -> order_from (ts_fin ts) l ->
  (forall x, x ∈ ts_log E X ts l -> exists s, x.2 = Some s /\ ts_fin ts < s) /\
  (forall i j x y, ts_log E X ts l !! i = Some x -> ts_log E X ts l !! j = Some y -> (i < j)%nat -> tpa_pubkey x.1 = tpa_pubkey y.1 ->
    exists s s', x.2 = Some s /\ y.2 = Some s' /\ s < s').
Proof.
  revert ts. induction l as [|o l IH]; intros ts H Hok Hi Hc Hp Hord; cbn [ts_run ts_log] in H |- *.
  - split; [intros x Hx; by apply elem_of_nil in Hx|]. intros i j x y Hx. by rewrite lookup_nil in Hx.
  - apply Forall_cons in Hok as [Ho Hok]. destruct (ts_step E X ts o) as [ts1|] eqn:H1; [|done]. cbn [mbind res_bind] in H.
    pose proof (run_ctr _ _ _ _ _ H Hok). assert (ts_ctr ts1 <= 2 ^ 32) as Hc1 by lia.
    pose proof (step_inv _ _ _ _ _ H1 Ho Hi Hc1) as Hi1.
    destruct (step_order _ _ _ _ _ H1 Ho Hi Hp (Hord [] o l eq_refl)) as (Hp1 & Hf & Hd & Hnd).
    destruct (IH ts1 H Hok Hi1 Hc Hp1) as [IH1 IH2].
    { intros l1 o' l2 ->. specialize (Hord (o :: l1) o' l2 eq_refl). unfold fin_from in Hord |- *. simpl in Hord. by rewrite Hf. }
    assert (ts_fin ts <= ts_fin ts1) as Hle by (rewrite Hf; destruct o as [|?|? ? []|]; lia).
    split.
    + intros x Hx. apply elem_of_app in Hx as [Hx|Hx].
      * destruct (Hd x Hx) as (s & ? & ?). exists s. split; [done|lia].
      * destruct (IH1 x Hx) as (s & ? & ?). exists s. split; [done|lia].
    + intros i j x y Hx Hy Hij Hk. set (D := deliveries E ts o) in *. rewrite lookup_app_Some in Hx, Hy. destruct Hx as [Hx|[Hxl Hx]], Hy as [Hy|[Hyl Hy]].
      * exfalso. assert (i = j) as ->; [|lia]. apply (NoDup_lookup _ i j (tpa_pubkey x.1) Hnd); rewrite list_lookup_fmap; [by rewrite Hx|by rewrite Hy, Hk].
      * destruct (Hd x) as (s & ? & ?); [by eapply elem_of_list_lookup_2|]. destruct (IH1 y) as (s' & ? & ?); [by eapply elem_of_list_lookup_2|].
        exists s, s'. split; [done|]. split; [done|lia].
      * apply lookup_lt_Some in Hy. lia.
      * apply (IH2 (i - length D)%nat (j - length D)%nat); try done. lia.
Qed.
(** ** C47.  When every account arrives pending, before its slot is finalized, the finalized versions of each account have strictly
    increasing slots, whatever the order of arrival. *)
Theorem C47_pending_order_partial E X l ts : ts_run E X ts_empty l = Done ts -> ops_ok l -> ts_ctr ts <= 2 ^ 32 -> in_order l ->
  forall i j x y, ts_log E X ts_empty l !! i = Some x -> ts_log E X ts_empty l !! j = Some y -> (i < j)%nat -> tpa_pubkey x.1 = tpa_pubkey y.1 ->
    exists s s', x.2 = Some s /\ y.2 = Some s' /\ s < s'.
Proof.
  intros H Hok Hc Ho. apply (run_order E X l ts_empty ts H Hok tinv_empty Hc); [|exact Ho]. split.
  - intros s s' (b & Hb & _). by apply elem_of_nil in Hb.
  - intros s pk v (b & Hb & _). by apply elem_of_nil in Hb.
Qed.
Print Assumptions C47_pending_order_partial.
(** Accounts of two forks and late arrivals within the window, two finalizations. *)
Definition window1 : list tsop :=
  [TUpdate (mintd 1001 50 9 1) Processed; TSlot ord0 (SlotInfo 9 8 0) Processed; TSlot ord0 (SlotInfo 9 8 0) Finalized;
   TUpdate (tokd 77 1001 1002 7 11 4) Processed; TUpdate (tokd 77 1001 1002 5 10 2) Processed; TUpdate (tokd 77 1001 1002 4 10 1) Confirmed;
   TSlot ord0 (SlotInfo 10 9 0) Processed; TSlot ord0 (SlotInfo 11 10 0) Processed; TSlot ord0 (SlotInfo 10 9 0) Finalized;
   TSlot ord0 (SlotInfo 11 10 0) Finalized].
Lemma in_order_check l : (forall i o, l !! i = Some o -> op_in_order (fin_after (take i l)) o) -> in_order l.
Proof. intros H l1 o l2 ->. specialize (H (length l1) o). rewrite take_app in H. apply H. apply list_lookup_middle. done. Qed.
Example C47_example_hyps : ts_run E0 X0 ts_empty window1 = Done (final window1) /\ ops_ok window1 /\ ts_ctr (final window1) <= 2 ^ 32 /\ in_order window1 /\
  snd <$> ts_log E0 X0 ts_empty window1 = [Some 9; Some 10; Some 11] /\ amount_of (ts_get (final window1) 77 Finalized) = Some 7.
Proof.
  split; [apply final_run; by vm_compute|]. split; [repeat constructor; simpl; try done; intros m; done|]. split; [by vm_compute|]. split; [|split; by vm_compute].
  apply in_order_check. intros i o H. do 10 (destruct i as [|i]; [injection H as <-; try split; by vm_compute|]).
  assert (([] : list tsop) !! i = Some o) as H' by exact H. by rewrite lookup_nil in H'.
Qed.
(** Findings.  A finalized update replaces whatever is there, older or not. *)
Theorem C47_direct_refuted : exists l a b, ops_ok l /\ ts_run E0 X0 ts_empty l = Done (final l) /\ d_pubkey a = d_pubkey b /\
  TUpdate a Finalized ∈ l /\ last l = Some (TUpdate b Finalized) /\ d_slot b < d_slot a /\ d_wv b < d_wv a /\
  amount_of (Done (ROk (Some a))) = Some 9 /\ amount_of (Done (ROk (Some b))) = Some 5 /\ amount_of (ts_get (final l) (d_pubkey a) Finalized) = Some 5.
Proof.
  exists [TInit (mintd 1001 50 1 1); TUpdate (tokd 77 1001 1002 9 20 9) Finalized; TUpdate (tokd 77 1001 1002 5 10 1) Finalized].
  exists (tokd 77 1001 1002 9 20 9), (tokd 77 1001 1002 5 10 1). split; [repeat constructor|]. split; [apply final_run; by vm_compute|].
  split; [done|]. split; [set_solver|]. split; [done|]. split; [done|]. split; [done|]. split; [by vm_compute|]. split; by vm_compute.
Qed.
Print Assumptions C47_direct_refuted.
(** A version of a slot that is already finalized, arriving late, is finalized with a later slot although it is older than the
    version in place. *)
Definition late1 : list tsop :=
  [TInit (mintd 1001 50 1 1); TUpdate (tokd 77 1001 1002 9 10 5) Processed; TSlot ord0 (SlotInfo 10 9 0) Finalized;
   TUpdate (tokd 77 1001 1002 5 10 3) Processed; TUpdate (tokd 78 1001 1002 1 11 6) Processed; TSlot ord0 (SlotInfo 11 10 0) Finalized].
Theorem C47_late_refuted : exists l a b, ops_ok l /\ ts_run E0 X0 ts_empty l = Done (final l) /\ d_pubkey a = d_pubkey b /\
  TUpdate a Processed ∈ l /\ TUpdate b Processed ∈ l /\ d_slot b = d_slot a /\ d_wv b < d_wv a /\
  amount_of (Done (ROk (Some a))) = Some 9 /\ amount_of (Done (ROk (Some b))) = Some 5 /\ amount_of (ts_get (final l) (d_pubkey a) Finalized) = Some 5.
Proof.
  exists late1, (tokd 77 1001 1002 9 10 5), (tokd 77 1001 1002 5 10 3). split; [repeat constructor; simpl; try done; intros m; done|].
  split; [apply final_run; by vm_compute|].
  split; [done|]. split; [unfold late1; set_solver|]. split; [unfold late1; set_solver|]. split; [done|]. split; [done|]. split; [by vm_compute|]. split; by vm_compute.
Qed.
Print Assumptions C47_late_refuted.
