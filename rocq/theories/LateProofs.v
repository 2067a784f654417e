(** Orderly streams during which accounts are loaded: the invariant of LedgerInv.v is kept. *)
From Verif Require Import Base SMap DataModel FilterModel BincodeModel ByCommitModel ByCommitSpec ByCommitProofs
  StoreModel StoreSpec StoreProofs StoreSlot StoreViews StoreHist LedgerSpec LedgerProofs LedgerInv LedgerSteps LedgerSlots LedgerFin LedgerRun LateSpec.

Lemma settled_counts_all L c a : lg_ok L -> counts L Finalized a -> counts L c a.
Proof.
  intros Hok [Ha|(Ha & t & Ht & Hb)]; [by left|right]. split; [done|]. destruct c; [done| |by exists t].
  eapply committed_branch; [by apply (lo_fin _ Hok)|done].
Qed.
(** ** A settled account is loaded *)
Section late.
Context (pk : pubkey) (L L' : ledger) (a : acct) (r : N).
Hypothesis Hok : lg_ok L.
Hypothesis Hr : lg_root L = Some r.
Hypothesis Er : lg_root L' = lg_root L.
Hypothesis Ep : lg_parent L' = lg_parent L.
Hypothesis Ew : lg_writes L' = lg_writes L.
Hypothesis Ec : lg_conf L' = lg_conf L.
Hypothesis Ef : lg_fin L' = lg_fin L.
Hypothesis Hcnt : forall c x, counts L' c x <-> counts L c x \/ x = a.
Hypothesis Hall : forall x, x ∈ lg_base L' \/ x ∈ lg_writes L' <-> (x ∈ lg_base L \/ x ∈ lg_writes L) \/ x = a.
Hypothesis Hslot : d_slot a < r \/ (known L (d_slot a) /\ committed L (d_slot a) /\ exists f, lg_fin L = Some f /\ d_slot a <= f).

Lemma late_branch t s : branch L' t s <-> branch L t s.
Proof using All. unfold branch, known. by rewrite Ep. Qed.
Lemma late_committed s : committed L' s <-> committed L s.
Proof using All. unfold committed. rewrite Ec. setoid_rewrite late_branch. done. Qed.
Lemma late_known s : known L' s <-> known L s.
Proof using All. unfold known. by rewrite Ep. Qed.
Lemma late_vers x : vers pk L' x <-> vers pk L x \/ (x = a /\ d_pubkey a = pk).
Proof using All. unfold vers. rewrite Hall. naive_solver. Qed.
Lemma late_mine t x : mine pk L' t x <-> mine pk L t x.
Proof using All. unfold mine. by rewrite Ew. Qed.
Lemma late_bottom : bottom L' = bottom L.
Proof using All. unfold bottom. by rewrite Ef, Er. Qed.
Lemma late_not_open t : known L t -> (forall f, lg_fin L = Some f -> f < t) -> t <> d_slot a.
Proof using All.
  intros Ht Hf ->. destruct Hslot as [Hlt|(_ & _ & f & Hff & Hle)]; [pose proof (lo_min _ Hok _ _ Ht Hr); lia|]. pose proof (Hf f Hff). lia.
Qed.
Lemma late_slots sl i sl' c' : slot_inv L sl -> add_to_status sl (d_slot a) i Finalized = (sl', c') -> slot_inv L' sl' /\
  (forall t β, bottom L = Some β -> β <= t -> known L t -> sl' !! t = sl !! t).
Proof using All.
  intros [V1 V2 V3 V4 V5] Hadd.
  assert (sl' = <[d_slot a := default (Status Finalized ∅ None) (sl !! d_slot a)]> sl) as -> by (unfold add_to_status in Hadd; by injection Hadd as <- _).
  assert (forall t ss, sl !! t = Some ss -> <[d_slot a := default (Status Finalized ∅ None) (sl !! d_slot a)]> sl !! t = Some ss) as Hkeep.
  { intros t ss Ht. destruct (decide (t = d_slot a)) as [->|Hne]; [by rewrite lookup_insert, Ht|by rewrite lookup_insert_ne]. }
  assert (forall t ss, <[d_slot a := default (Status Finalized ∅ None) (sl !! d_slot a)]> sl !! t = Some ss -> sl !! t = Some ss \/ (t = d_slot a /\ sl !! t = None /\ ss = Status Finalized ∅ None)) as Hnew.
  { intros t ss Ht. destruct (decide (t = d_slot a)) as [->|Hne]; [|rewrite lookup_insert_ne in Ht by done; by left]. rewrite lookup_insert in Ht.
    destruct (sl !! d_slot a) as [s0|]; injection Ht as <-; auto. }
  split; [constructor|].
  - rewrite Er, Hr. done.
  - intros r' s Hr' [ss Hs]. rewrite late_known. rewrite Er, Hr in Hr'. injection Hr' as <-. apply Hnew in Hs as [Hs|(-> & _)]; [apply (V2 r); [done|by exists ss]|].
    destruct Hslot as [?|(? & _)]; auto.
  - intros β q ss Hβ Hq Hss. rewrite late_bottom in Hβ. rewrite Ep in Hq. apply Hnew in Hss as [Hss|(_ & _ & ->)]; [by apply (V3 β q ss)|simpl; auto].
  - intros β s Hβ Hk Hge. rewrite late_bottom in Hβ. rewrite late_known in Hk. destruct (V4 β s Hβ Hk Hge) as (ss & H1 & H2 & H3). exists ss. split; [by apply Hkeep|].
    rewrite Ep, Ef. split; [done|]. intros Hc%late_committed. auto.
  - intros s ss Hk Hc Hss. rewrite late_known in Hk. rewrite late_committed in Hc. apply Hnew in Hss as [Hss|(-> & _ & _)]; [by apply (V5 s)|].
    destruct Hslot as [Hlt|(_ & Hcm & _)]; [pose proof (lo_min _ Hok _ _ Hk Hr); lia|done].
  - intros t β Hβ Hge Hk. destruct (V4 β t Hβ Hk Hge) as (ss & H1 & _). rewrite H1. by apply Hkeep.
Qed.
Lemma late_other sl sl' i b : d_pubkey a <> pk -> (forall t β, bottom L = Some β -> β <= t -> known L t -> sl' !! t = sl !! t) -> entry_inv pk L sl i b -> entry_inv pk L' sl' i b.
Proof using All.
  intros Hne Hsl [I1 I2 I3 I4 I5 I6].
  assert (forall c o, in_ledger L pk c o -> in_ledger L' pk c o) as Hl. { intros c o. apply in_ledger_ext. intros x Hx. rewrite Hcnt. split; [by left|intros [?| ->]; done]. }
  constructor; [|by auto..| |].
  - eapply bc_all_mono; [|exact I1]. intros x Hx. apply Hall. by left.
  - intros t Ht Hf. rewrite late_known in Ht. rewrite Ef in Hf. eapply latest_ext; [|by apply I5]. intros x. by rewrite late_mine.
  - intros t β ss Hβ Hge Ht Hss. rewrite late_bottom in Hβ. rewrite late_known in Ht. rewrite (Hsl t β) in Hss by done. setoid_rewrite late_mine. by apply (I6 t β ss).
Qed.
Lemma late_step m st F st' res : st_ok st -> update_account F st a Finalized = Done (st', res) -> tame m pk F L' -> fresh m pk L a ->
  slot_inv L (st_slots st) -> pk_inv pk m L st -> slot_inv L' (st_slots st') /\ pk_inv pk m L' st'.
Proof using All.
  intros Hst Hu Htame Hfresh Hsv Hpk.
  assert (d_pubkey a <> pk -> gone pk m L -> gone pk m L') as Hgone.
  { intros Hne. apply gone_mono; [intros x; rewrite late_vers; naive_solver|]. intros x Hx. apply Hcnt. by left. }
  pose proof (update_account_inv F st a Finalized st' res Hst Hu) as Hc. unfold pk_inv in *.
  destruct Hc as [Hi Hs|sl' cx Hi Hs Hadd|i b sl' c' b' upd ow' Hi Hb Hadd Hup Hud Hud0|i b sl' c' b' prev ow' Hi Hb Hadd Hup Hprev Hud]; simpl.
  - split.
    + destruct Hsv as [H1 H2 H3 H4 H5]. constructor; rewrite ?Er, ?Hr, ?late_bottom, ?Ep, ?Ef; try done.
      * intros r' s Hr' Hs'. rewrite late_known. apply (H2 r'); [congruence|done].
      * intros β s Hβ Hk Hge. rewrite late_known in Hk. destruct (H4 β s Hβ Hk Hge) as (ss & K1 & K2 & K3). exists ss. split; [done|]. split; [done|]. intros Hc%late_committed. auto.
      * intros s ss Hk Hc. rewrite late_known in Hk. rewrite late_committed in Hc. by apply H5.
    + destruct (decide (d_pubkey a = pk)) as [Hpa|Hne].
      { rewrite Hpa in Hi. rewrite Hi in *. apply (reject_gone m pk F L L' a); try done. intros x. rewrite late_vers. naive_solver. }
      destruct (st_index st !! pk) as [i|]; [destruct Hpk as (b & Hb & Hei); exists b; split; [done|]; by apply (late_other (st_slots st))|]. by apply Hgone.
  - destruct (late_slots _ _ _ _ Hsv Hadd) as [Hsv' Hsame]. split; [done|]. destruct (decide (d_pubkey a = pk)) as [Hpa|Hne].
    + rewrite Hpa, lookup_insert. exists (bc_new a Finalized). split; [by rewrite lookup_app_r, Nat.sub_diag by lia|].
      rewrite Hpa in Hi. rewrite Hi in Hpk. pose proof (fresh_gone _ _ _ _ Hpa Hfresh Hpk) as Hnone.
      assert (forall c, in_ledger L' pk c (Some a)) as Hl.
      { intros c. split; [split; [|done]; apply Hcnt; by right|]. intros x [[Hx| ->]%Hcnt Ex]; [|apply version_le_refl].
        destruct (Hnone x). split; [|done]. destruct Hx as [?|[? _]]; auto. }
      assert (forall t x, ~ mine pk L t x) as Hnm. { intros t x (Hx & Ex & _). destruct (Hnone x). split; [by right|done]. }
      constructor; [|by apply Hl..| |].
      * assert (a ∈ lg_base L' \/ a ∈ lg_writes L') as Hin by (apply Hall; by right). split_and!; simpl.
        -- intros k x. destruct (k =? d_slot a); [|done]. by intros [= ->].
        -- by intros x [= ->].
        -- by intros x [= ->].
      * intros t Ht Hf. rewrite late_known in Ht. rewrite Ef in Hf. simpl. destruct (N.eqb_spec t (d_slot a)) as [->|_]; [by destruct (late_not_open _ Ht Hf)|].
        intros x Hx%late_mine. by destruct (Hnm t x).
      * intros t β ss Hβ Hge Ht Hss. rewrite late_bottom in Hβ. rewrite late_known in Ht. rewrite (Hsame t β) in Hss by done. setoid_rewrite late_mine.
        split; [|intros [x Hx]; by destruct (Hnm t x)]. intros Hin. pose proof (so_slots _ Hst _ _ _ Hss Hin). lia.
    + rewrite lookup_insert_ne by done. destruct (st_index st !! pk) as [i|] eqn:Hpi.
      * destruct Hpk as (b & Hb & Hei). exists b. split; [|by apply (late_other (st_slots st))]. rewrite lookup_app_l; [done|]. by eapply lookup_lt_Some.
      * by apply Hgone.
  - destruct (late_slots _ _ _ _ Hsv Hadd) as [Hsv' Hsame]. split; [done|]. pose proof (add_to_status_spec _ _ _ _ _ _ Hadd) as (-> & _).
    destruct (decide (d_pubkey a = pk)) as [Hpa|Hne].
    + rewrite Hpa in Hi. rewrite Hi in Hpk |- *. destruct Hpk as (b0 & Hb0 & [I1 I2 I3 I4 I5 I6]). rewrite Hb in Hb0. injection Hb0 as <-.
      exists b'. split; [by apply list_lookup_insert, (so_bound _ Hst _ _ Hi)|].
      assert (b' = (bc_update b a Finalized).1) as -> by (by rewrite Hup).
      destruct (so_pk _ Hst _ _ _ Hi Hb) as [_ Hne].
      constructor.
      * apply bc_all_update; [|apply Hall; by right]. eapply bc_all_mono; [|exact I1]. intros x Hx. apply Hall. by left.
      * rewrite bc_update_unfold. simpl. by apply (in_ledger_add pk L L').
      * rewrite bc_update_unfold. simpl. by apply (in_ledger_add pk L L').
      * apply (processed_add (fun x => counts L Processed x /\ d_pubkey x = pk)); [exact (so_bc _ Hst _ _ Hb)|done| |done].
        intros x. rewrite Hcnt. naive_solver.
      * intros t Ht Hf. rewrite late_known in Ht. rewrite Ef in Hf. rewrite bc_update_unfold. simpl. rewrite upd_proc_get_ne by (by apply late_not_open).
        eapply latest_ext; [|by apply I5]. intros x. by rewrite late_mine.
      * intros t β ss Hβ Hge Ht Hss. rewrite late_bottom in Hβ. rewrite late_known in Ht. rewrite (Hsame t β) in Hss by done. setoid_rewrite late_mine. by apply (I6 t β ss).
    + destruct (st_index st !! pk) as [j|] eqn:Hpi.
      * destruct Hpk as (b0 & Hb0 & Hei). exists b0. split; [|by apply (late_other (st_slots st))]. rewrite list_lookup_insert_ne; [done|]. intros ->. apply Hne. by eapply (so_inj _ Hst).
      * by apply Hgone.
  - destruct (late_slots _ _ _ _ Hsv Hadd) as [Hsv' Hsame]. split; [done|]. pose proof (add_to_status_spec _ _ _ _ _ _ Hadd) as (-> & _).
    destruct (decide (d_pubkey a = pk)) as [Hpa|Hne].
    + rewrite Hpa in Hi. rewrite Hi in Hpk. rewrite Hpa, lookup_delete. destruct Hpk as (b0 & Hb0 & [I1 _ _ _ _ _]). rewrite Hb in Hb0. injection Hb0 as <-.
      pose proof (entry_pk _ _ _ _ _ _ Hst Hi Hb Hprev) as Hppk.
      destruct (update_owner_delete_spec F (st_owners st) prev a i Finalized) as (ow2 & del2 & H2 & Hdel & _); [by rewrite Hpa|].
      rewrite Hud in H2. injection H2 as <- <-. destruct (proj1 Hdel eq_refl) as (Hx1 & Hx2 & Hx3).
      assert (vers pk L' a) as Hva by (apply late_vers; by right).
      destruct (tame_out m pk F L' a) as (Hm & Hd & Hall'); [done|done| |naive_solver|].
      { intros ->. assert (drops F Finalized prev a = true) as Hd by (apply drops_true; naive_solver).
        rewrite (safe_drops pk F (vers pk L')) in Hd; try done. apply late_vers. left. split; [|done].
        exact (bc_all_get _ b Finalized prev (so_bc _ Hst _ _ Hb) I1 Hprev). }
      right. split; [done|]. exists a. split_and!; [done..|]. right. apply Hcnt. by right.
    + rewrite lookup_delete_ne by done. destruct (st_index st !! pk) as [j|] eqn:Hpi.
      * destruct Hpk as (b0 & Hb0 & Hei). exists b0. split; [|by apply (late_other (st_slots st))]. rewrite list_lookup_insert_ne; [done|]. intros ->. apply Hne. by eapply (so_inj _ Hst).
      * by apply Hgone.
Qed.
End late.

(** ** All steps together *)
Lemma late_one L o L' a b : late_event L o L' -> delivers o a -> delivers o b -> a = b.
Proof. destruct 1 as [o L' He| |]; [by apply (event_one _ _ _ _ _ He)|simpl; congruence..]. Qed.
Lemma late_has L o L' a : late_event L o L' -> a ∈ lg_base L' \/ a ∈ lg_writes L' -> (a ∈ lg_base L \/ a ∈ lg_writes L) \/ delivers o a.
Proof. destruct 1 as [o L' He| |]; [by apply (event_vers _ _ _ _ He)|simpl; rewrite ?elem_of_app, ?elem_of_list_singleton; naive_solver|by left]. Qed.
Lemma mixed_one h L : mixed h L -> one_each h.
Proof.
  induction 1 as [|h L F' o' L' Ho IH He]; intros F o a b; [set_solver|]. rewrite elem_of_app, elem_of_list_singleton. intros [Hin|[= -> ->]]; [by eapply IH|]. by eapply late_one.
Qed.
Lemma mixed_received h L : mixed h L -> received_all h L.
Proof.
  induction 1 as [|h L F o L' Ho IH He]; simpl; intros a Ha; [set_solver|].
  destruct (late_has _ _ _ _ He Ha) as [H|H]; [destruct (IH a H) as (F' & o' & ? & ?); exists F', o'; set_solver|exists F, o; set_solver].
Qed.
Lemma late_ok L o L' : lg_ok L -> late_event L o L' -> lg_ok L'.
Proof.
  intros Hok [o' L1 He|a r Hr Hlt|]; [by eapply lg_ok_event| |done]. destruct Hok as [H1 H2 H3 H4 H5 H6 H7 H8]. constructor; simpl; auto.
  intros x r' [Hx| ->%elem_of_list_singleton]%elem_of_app Hr'; [by apply H7|]. rewrite Hr in Hr'. by injection Hr' as <-.
Qed.
Lemma mixed_ok h L : mixed h L -> lg_ok L.
Proof. induction 1; [apply lg_ok_empty|]. by eapply late_ok. Qed.
Lemma settled_where L a r : lg_ok L -> lg_root L = Some r -> counts L Finalized a ->
  d_slot a < r \/ (known L (d_slot a) /\ committed L (d_slot a) /\ exists f, lg_fin L = Some f /\ d_slot a <= f).
Proof.
  intros Hok Hr [Ha|(Ha & t & Ht & Hb)]; [left; by apply (lo_base _ Hok)|right]. split; [by apply (lo_writes _ Hok)|].
  split; [eapply committed_branch; [by apply (lo_fin _ Hok)|done]|]. exists t. split; [done|]. by apply (branch_le L).
Qed.
Lemma late_event_inv m E pk L F o L' st st' r : lg_ok L -> late_event L o L' -> st_ok st -> step E F st o = Done (st', r) -> tame m pk F L' -> (forall a, delivers o a -> fresh m pk L a) ->
  slot_inv L (st_slots st) -> pk_inv pk m L st -> slot_inv L' (st_slots st') /\ pk_inv pk m L' st'.
Proof.
  intros Hok [o' L1 He|a r0 Hr0 Hlt|a [r0 Hr0] Ha] Hst Hs Ht Hfr Hsv Hpk; [by eapply event_inv|..]; simpl in Hs; unfold init_account in Hs;
    (destruct (update_account F st a Finalized) as [[st2 b]|] eqn:Hu; [|done]); injection Hs as <- _.
  - eapply (late_step pk L _ a r0); try done; simpl; [| |by left|by apply Hfr]; intros; unfold counts; simpl; rewrite elem_of_app, elem_of_list_singleton; naive_solver.
  - eapply (late_step pk L _ a r0); try done; [| |by apply settled_where|by apply Hfr].
    + intros c x. split; [by left|]. intros [?| ->]; [done|]. by apply settled_counts_all.
    + intros x. split; [by left|]. intros [?| ->]; [done|]. destruct Ha as [?|[? _]]; auto.
Qed.
Lemma mixed_inv m E pk h L st : mixed h L -> run E store_empty h = Done st -> regular m h pk -> slot_inv L (st_slots st) /\ pk_inv pk m L st.
Proof.
  intros Ho. revert st. induction Ho as [|h L F o L' Ho IH He]; intros st Hrun Hreg.
  { by apply (orderly_inv m E pk [] no_ledger st); [constructor|..]. }
  assert (mixed (h ++ [(F, o)]) L') as Ho' by (by econstructor).
  rewrite run_app in Hrun. destruct (run E store_empty h) as [st0|] eqn:Hrun0; [|done]. simpl in Hrun.
  destruct (IH st0 eq_refl (regular_prefix _ _ _ _ Hreg)) as [Hsv Hpk]. pose proof (mixed_ok _ _ Ho) as Hok.
  assert (st_ok st0) as Hst by (eapply run_ok; [apply st_ok_empty|done]).
  assert (tame m pk F L') as Ht by (eapply (regular_tame_of m _ pk L' F o); [done|by apply mixed_received|by eapply mixed_one|set_solver]).
  destruct (step E F st0 o) as [[st1 r]|] eqn:Hs; [|done]. simpl in Hrun. injection Hrun as <-.
  eapply (late_event_inv m E pk L F o L'); try done. intros a Ha. eapply regular_fresh_of; [done|by apply mixed_received|done].
Qed.
Lemma mixed_version m E pk h L st c : mixed h L -> run E store_empty h = Done st -> regular m h pk ->
  in_ledger L pk c (version_at st pk c) \/ (version_at st pk c = None /\ m = true /\ exists x, in_ledger L pk c (Some x) /\ ~ alive x).
Proof. intros Ho Hrun Hreg. apply inv_version; [by eapply mixed_ok|]. by apply (mixed_inv m E pk h L st Ho Hrun Hreg). Qed.
Lemma mixed_tame m h pk L F o : regular m h pk -> mixed h L -> (F, o) ∈ h -> tame m pk F L.
Proof. intros Hr Ho. apply regular_tame_of; [done|by apply mixed_received|by eapply mixed_one]. Qed.
Lemma orderly_mixed h L : orderly h L -> mixed h L.
Proof. induction 1; [constructor|]. econstructor; [done|]. by constructor. Qed.
