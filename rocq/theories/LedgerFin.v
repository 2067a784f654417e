(** On an orderly stream the store shows the ledger: finalizing slots keeps the invariant. *)
From Verif Require Import Base SMap DataModel FilterModel BincodeModel ByCommitModel ByCommitSpec ByCommitProofs
  StoreModel StoreSpec StoreProofs StoreSlot StoreViews StoreHist LedgerSpec LedgerProofs LedgerInv LedgerSteps LedgerSlots.

Section finalize.
Context (L : ledger) (si : slot_info).
Let s := si_slot si.
Let L' := Ledger (lg_base L) (lg_root L) (lg_parent L) (lg_writes L) (lg_conf L) (Some s).
Hypothesis Hok : lg_ok L.
Hypothesis Hsp : lg_parent L !! s = Some (si_parent si).
Hypothesis Hcm : committed L s.
Hypothesis Hf : forall f, lg_fin L = Some f -> f < s.
Lemma fz_known : known L s.
Proof. by eexists. Qed.
Lemma fz_branch β : bottom L = Some β -> branch L s β.
Proof.
  unfold bottom. destruct (lg_fin L) as [f|] eqn:Hfin.
  - intros [= <-]. destruct (lo_fin _ Hok _ Hfin) as (t & Ht & Hb). destruct Hcm as (t2 & Ht2 & Hb2). rewrite Ht in Ht2. injection Ht2 as <-.
    eapply branch_linear; [done|exact Hb2|exact Hb|]. specialize (Hf f eq_refl). lia.
  - intros Hr. apply branch_root; [done|apply fz_known|done].
Qed.
Lemma fz_chain sl β q t : slot_inv L sl -> bottom L = Some β -> lg_parent L !! β = Some q -> branch L s t -> β <= t -> (forall f, lg_fin L = Some f -> f < t) ->
  on_chain sl si Finalized t.
Proof.
  intros Hsv Hβ Hq Ht Hge Hft. apply (ph_all L sl si Finalized β q Hok Hsv Hβ Hq Hsp); [done..|]. intros x ss Hx Hle Hss.
  destruct (branch_known _ _ _ Hx) as [_ Hkx]. destruct (sv_known _ _ Hsv β x Hβ Hkx ltac:(lia)) as (ss2 & Hss2 & _ & Hc). rewrite Hss in Hss2. injection Hss2 as <-.
  destruct Hc as [_ Hc]; [by eapply committed_branch|]. rewrite Hc; [done|]. intros Hfx. specialize (Hft x Hfx). lia.
Qed.
Lemma fz_slots sl sl' wa : slot_inv L sl -> slot_phase sl si Finalized = Some (sl', wa) -> slot_inv L' sl'.
Proof.
  intros Hsv Hph. destruct (bottom_some L s Hok fz_known) as (β & q & Hβ & Hq & Hqb). pose proof (fz_branch β Hβ) as Hb.
  pose proof (ph_chain L sl si Finalized β q Hok Hsv Hβ Hq Hb Hsp) as Hch.
  destruct (slot_phase_spec _ _ _ _ _ Hph) as (_ & _ & _ & Hsl & Hpr). specialize (Hpr eq_refl). change (forall t, t < s -> sl' !! t = None) in Hpr.
  assert (forall t, s <= t -> (on_chain sl si Finalized t /\ exists ss, sl !! t = Some ss /\ sl' !! t = Some (Status Finalized (ss_accounts ss) (parent_of sl si t))) \/
    (~ on_chain sl si Finalized t /\ sl' !! t = sl !! t)) as Hcase.
  { intros t Ht. destruct (Hsl t) as [?|[? [?|(_ & ? & _)]]]; [by right|by left|by right|done]. }
  clear Hsl. destruct (known_root _ _ Hok fz_known) as [r Hr]. pose proof (branch_le _ _ _ Hok Hb) as Hbs. pose proof Hsv as [V1 V2 V3 V4 V5].
  assert (on_chain sl si Finalized s) as Hs by (eapply (fz_chain sl β q); [done..|apply branch_refl, fz_known|done|done]).
  assert (forall t ss', sl' !! t = Some ss' -> s <= t) as Hhigh.
  { intros t ss' Ht. destruct (decide (t < s)) as [Hlt|]; [rewrite Hpr in Ht by done; done|lia]. }
  constructor.
  - simpl. congruence.
  - intros r' x Hr' [ss' Hx]. apply (V2 r' x Hr'). destruct (Hcase x (Hhigh _ _ Hx)) as [(_ & ss & Hss & _)|(_ & He)]; [by eexists|rewrite <- He; by eexists].
  - intros β' q' sq Hβ' Hq' Hsq. injection Hβ' as <-. change (lg_parent L !! s = Some q') in Hq'. destruct (lo_parent _ Hok _ _ Hq') as [Hlt _].
    pose proof (Hhigh _ _ Hsq). lia.
  - intros β' x Hβ' Hx Hge. injection Hβ' as <-. change (known L x) in Hx. destruct (V4 β x Hβ Hx ltac:(lia)) as (ss & Hss & Hp & Hc).
    destruct (Hcase x Hge) as [(Hxc & ss2 & Hss2 & Hs')|(Hnch & He)].
    + rewrite Hss in Hss2. injection Hss2 as <-. exists (Status Finalized (ss_accounts ss) (parent_of sl si x)). split; [done|].
      assert (x = s) as ->. { destruct (Hch x Hxc) as [[Hbx _]| ->]; [pose proof (branch_le _ _ _ Hok Hbx) as Hle; change (x <= s) in Hle|]; lia. }
      split; [|done]. simpl. unfold parent_of. destruct (N.eqb_spec s (si_slot si)) as [_|?]; done.
    + exists ss. rewrite He. split; [done|]. split; [done|]. intros Hcx. destruct (Hc Hcx) as [H1 H2]. split; [done|]. intros _. apply H2. intros Hfx. specialize (Hf x Hfx). lia.
  - intros x ss Hx Hnc Hss. change (known L x) in Hx. change (~ committed L x) in Hnc. destruct (Hcase x (Hhigh _ _ Hss)) as [(Hxc & _)|(_ & He)].
    + destruct Hnc. destruct (Hch x Hxc) as [[Hbx _]| ->]; [by eapply committed_branch|by apply (bottom_parent L β q)].
    + rewrite He in Hss. by apply (V5 x).
Qed.
End finalize.

Lemma finalize_step m pk L st si F st' out : lg_ok L -> st_ok st -> slot_inv L (st_slots st) -> pk_inv pk m L st ->
  tame m pk F L ->
  lg_parent L !! si_slot si = Some (si_parent si) -> committed L (si_slot si) -> (forall f, lg_fin L = Some f -> f < si_slot si) ->
  process_slot F st si Finalized = Done (st', out) ->
  let L' := Ledger (lg_base L) (lg_root L) (lg_parent L) (lg_writes L) (lg_conf L) (Some (si_slot si)) in
  slot_inv L' (st_slots st') /\ pk_inv pk m L' st'.
Proof.
  intros Hok Hst Hsv Hpk Htame Hsp Hcm Hf Hp L'. set (s := si_slot si) in *.
  destruct (process_slot_spec F st si Finalized Hst) as (st1 & sl & wa & H1 & Hph & Hsl & Hse). rewrite H1 in Hp. injection Hp as <- <-.
  rewrite Hsl. split; [by eapply (fz_slots L si)|]. unfold pk_inv in *. destruct (st_index st !! pk) as [i|] eqn:Hi; [|rewrite (se_none _ _ _ _ _ _ Hse pk Hi); apply (gone_mono pk m L); [done| |done];
    intros x [Hx|(Hx & t & Ht & Hbx)]; [by left|right; split; [done|]; exists s; split; [done|]; change (branch L s (d_slot x));
      eapply branch_trans; [|exact Hbx]; apply (fz_branch L si Hok Hsp Hcm Hf); unfold bottom; by rewrite Ht]].
  destruct Hpk as (b & Hb & [I1 I2 I3 I4 I5 I6]).
  pose proof (so_bc _ Hst _ _ Hb) as Hbc. destruct (so_pk _ Hst _ _ _ Hi Hb) as [Hbpk Hne].
  assert (known L s) as Hks by by eexists.
  destruct (bottom_some L s Hok Hks) as (β & q & Hβ & Hq & Hqb). pose proof (fz_branch L si Hok Hsp Hcm Hf β Hβ) as Hbr.
  destruct (ph_phase (L) (st_slots st) si Finalized β q Hok Hsv Hβ Hq Hbr Hsp ltac:(done) sl wa Hph) as [Hwa _].
  pose proof (branch_le _ _ _ Hok Hbr) as Hbs. change (β <= s) in Hbs.
  (* dropped, or kept *)
  assert ((st_index st1 !! pk = None /\ gone pk m L') \/
    (st_index st1 !! pk = Some i /\ st_accounts st1 !! i = Some (match wa !! i with None => b | Some t => (bc_promote b t Finalized).1 end))) as [[Hi' Hg]|[Hi' Hb']].
  { pose proof (slot_version F st si Finalized wa st1 pk i b Hst Hse Hi Hb) as H. destruct (wa !! i) as [t|] eqn:Ht; [|by right].
    destruct (prom_after F b t Finalized) as [[b' del] rep] eqn:Hp. destruct H as [Hi' Hb']. destruct del.
    2: { right. destruct (prom_after_keep _ _ _ _ _ _ Hp) as [-> _]. done. }
    left. split; [done|]. destruct (prom_after_drop _ _ _ _ _ _ Hp) as (_ & y & x & Hr & _ & Hdr).
    rewrite bc_promote_report in Hr. destruct (sm_get t (bc_proc b)) as [z|] eqn:Hz; [|done]. simpl in Hr.
    destruct (bc_fin b) as [x0|] eqn:Hx0; [|done]. destruct (_ <? _); [|done]. injection Hr as -> ->. destruct I1 as (B1 & _ & B3). destruct Hbpk as (P1 & _ & P3).
    assert (vers pk L y) as Hvy by (split; [by eapply B1|by eapply P1]). assert (vers pk L x) as Hvx by (split; [by apply B3|by apply P3]).
    pose proof (proj1 (drops_true _ _ _ _) Hdr) as (_ & _ & Ho).
    destruct (tame_out m pk F L y) as (Hm & Hd & Hall); [done|done| |done|].
    { intros ->. rewrite (safe_drops pk F (vers pk L)) in Hdr; try done; [by apply P3|by eapply P1]. }
    right. split; [done|]. exists y. split_and!; [done..|]. right. destruct Hvy as [[?|?] _]; [by left|right]. split; [done|]. exists s. split; [done|].
    change (branch L s (d_slot y)). rewrite (ok_key _ Hbc _ _ Hz). by destruct (Hwa i t Ht) as (_ & ? & _). }
  { by rewrite Hi'. }
  rewrite Hi'. eexists. split; [exact Hb'|]. rewrite Hsl.
  assert (forall t, branch L s t -> β <= t -> acc_in (st_slots st) i t <-> exists a, mine pk L t a) as Hacc.
  { intros t Ht Hge. destruct (branch_known _ _ _ Ht) as [_ Hkt]. destruct (sv_known _ _ Hsv β t Hβ Hkt Hge) as (ss & Hss & _). rewrite <- (I6 t β ss Hβ Hge Hkt Hss).
    split; [intros (ss2 & Hss2 & ?); congruence|by exists ss]. }
  (* the slots that become final *)
  assert (forall t, branch L s t -> (forall f, lg_fin L = Some f -> f < t) -> β <= t) as Hnewge.
  { intros t Ht Hft. unfold bottom in Hβ. destruct (lg_fin L) as [f|] eqn:Hfin; [specialize (Hft f eq_refl); assert (f = β) by congruence; lia|].
    destruct (branch_known _ _ _ Ht) as [_ Hkt]. by apply (lo_min _ Hok). }
  assert (forall x, counts L' Finalized x <-> counts L Finalized x \/ (x ∈ lg_writes L /\ branch L s (d_slot x) /\ forall f, lg_fin L = Some f -> f < d_slot x)) as Hcnt.
  { intros x. unfold counts. simpl. split.
    - intros [?|(Hx & t & [= <-] & Hbx)]; [by left; left|]. change (branch L s (d_slot x)) in Hbx. destruct (lg_fin L) as [f|] eqn:Hfin.
      + destruct (decide (f < d_slot x)) as [Hlt|Hle]; [right; split_and!; [done..|]; intros f' [= <-]; done|]. left. right. split; [done|]. exists f. split; [done|].
        eapply branch_linear; [done| |exact Hbx|lia]. apply (fz_branch L si Hok Hsp Hcm); [by rewrite Hfin|]. unfold bottom. by rewrite Hfin.
      + right. done.
    - intros [[?|(Hx & t & Ht & Hbx)]|(Hx & Hbx & _)]; [by left|right|right]; (split; [done|]); exists s; (split; [done|]); [|exact Hbx].
      change (branch L s (d_slot x)). eapply branch_trans; [|exact Hbx]. apply (fz_branch L si Hok Hsp Hcm Hf). unfold bottom. by rewrite Ht. }
  assert (forall t, branch L s t -> (forall f, lg_fin L = Some f -> f < t) -> acc_in (st_slots st) i t -> exists t', wa !! i = Some t' /\ t <= t') as Hhit.
  { intros t Ht Hft Hin. destruct (slot_phase_spec _ _ _ _ _ Hph) as (_ & Hall & _). pose proof (Hnewge t Ht Hft) as Hge.
    pose proof (fz_chain L si Hok Hsp Hcm Hf (st_slots st) β q t Hsv Hβ Hq Ht Hge Hft) as Hct. destruct (Hin) as (ss & Hss & Hin').
    destruct (Hall i t ss Hct Hss Hin') as [t' Ht']. exists t'. split; [done|]. destruct (Hwa i t' Ht') as (_ & _ & _ & _ & Hmax).
    destruct (decide (t <= t')) as [|Hgt]; [done|]. destruct (Hmax t Ht); [lia|done]. }
  assert (forall t, branch L s t -> forall x, sm_get t (bc_proc b) = Some x -> counts L Confirmed x /\ d_pubkey x = pk) as Hcold.
  { intros t Ht x Hx. destruct I1 as (B1 & _). destruct Hbpk as (B2 & _). split; [|by eapply B2]. destruct (B1 _ _ Hx) as [?|?]; [by left|right]. split; [done|].
    rewrite (ok_key _ Hbc _ _ Hx). by eapply committed_branch. }
  assert (forall t, lg_fin L = Some t -> forall x, sm_get t (bc_proc b) = Some x -> counts L Finalized x /\ d_pubkey x = pk) as Hfold.
  { intros t Ht x Hx. destruct I1 as (B1 & _). destruct Hbpk as (B2 & _). split; [|by eapply B2]. destruct (B1 _ _ Hx) as [?|?]; [by left|right]. split; [done|].
    rewrite (ok_key _ Hbc _ _ Hx). exists t. split; [done|]. apply branch_refl. destruct (lo_fin _ Hok _ Ht) as (? & _ & _ & ?). done. }
  assert (in_ledger L' pk Finalized (bc_fin (match wa !! i with None => b | Some t => (bc_promote b t Finalized).1 end))) as Hfin.
  { destruct (wa !! i) as [t|] eqn:Ht.
    - destruct (Hwa i t Ht) as (_ & Hbt & Hge & Hin & Hmax). rewrite bc_promote_fin. destruct (branch_known _ _ _ Hbt) as [_ Hkt].
      destruct (decide (lg_fin L = Some t)) as [Hft|Hft].
      + rewrite (take_over_old (fun x => counts L Finalized x /\ d_pubkey x = pk)); [|exact I3|by apply Hfold].
        eapply in_ledger_ext; [|exact I3]. intros x Ex. rewrite Hcnt. split; [by left|]. intros [?|(Hx & Hbx & Hfx)]; [done|].
        destruct (Hmax (d_slot x) Hbx (Hfx t Hft)). apply Hacc; [done|by apply Hnewge|]. by exists x.
      + assert (forall f, lg_fin L = Some f -> f < t) as Hft'.
        { intros f Hff. unfold bottom in Hβ. rewrite Hff in Hβ. assert (f = β) as -> by congruence. assert (t <> β) by congruence. lia. }
        assert (forall x, counts L Finalized x -> d_slot x < t) as Hlow.
        { intros x [Hx|(_ & f & Hff & Hbx)].
          - destruct (known_root _ _ Hok Hks) as [r Hr]. pose proof (lo_base _ Hok _ _ Hx Hr). pose proof (lo_min _ Hok _ _ Hkt Hr). lia.
          - pose proof (branch_le _ _ _ Hok Hbx). specialize (Hft' f Hff). lia. }
        apply Hacc in Hin as [a Ha]; [|done..].
        eapply (take_over_new (fun x => counts L Finalized x /\ d_pubkey x = pk) _ (mine pk L t) b t (bc_fin b) a I3); [by apply I5|done|..].
        * intros x [Hx _]. by apply Hlow.
        * intros x (Hx & Ex & Hxs). split; [done|]. split; [|done]. apply Hcnt. right. rewrite Hxs. done.
        * intros x [[Hx|(Hx & Hbx & Hfx)]%Hcnt Ex]; [left; by apply Hlow|].
          destruct (decide (d_slot x = t)) as [Heq|Hneq]; [by right|left]. destruct (decide (d_slot x < t)) as [|Hgt]; [done|].
          destruct (Hmax (d_slot x) Hbx ltac:(lia)). apply Hacc; [done|by apply Hnewge|]. by exists x.
    - eapply in_ledger_ext; [|exact I3]. intros x Ex. rewrite Hcnt. split; [by left|]. intros [?|(Hx & Hbx & Hfx)]; [done|].
      destruct (Hhit (d_slot x) Hbx Hfx) as (t' & Ht' & _); [|congruence]. apply Hacc; [done|by apply Hnewge|]. by exists x. }
  constructor.
  - destruct (wa !! i); [by apply bc_all_promote|done].
  - assert (bc_conf (match wa !! i with None => b | Some t => (bc_promote b t Finalized).1 end) = bc_conf b) as ->; [|exact I2].
    destruct (wa !! i) as [t|] eqn:Ht; [|done]. rewrite bc_promote_conf. eapply take_over_old; [exact I2|]. apply Hcold. by destruct (Hwa i t Ht) as (_ & ? & _).
  - exact Hfin.
  - assert (last (bc_proc (match wa !! i with None => b | Some t => (bc_promote b t Finalized).1 end)) = last (bc_proc b)) as Hlast.
    { destruct (wa !! i); [by rewrite bc_promote_proc, prune_last|done]. }
    simpl in *. rewrite Hlast. destruct (sm_last_nonempty _ Hne) as (k & p & Hl). rewrite Hl in *. exact I4.
  - intros t Ht Hft. change (known L t) in Ht. specialize (Hft s eq_refl).
    assert (sm_get t (bc_proc (match wa !! i with None => b | Some t => (bc_promote b t Finalized).1 end)) = sm_get t (bc_proc b)) as ->.
    { destruct (wa !! i) as [t'|] eqn:Ht'; [|done]. rewrite bc_promote_proc. apply prune_get; [by apply ok_sorted|].
      destruct (Hwa i t' Ht') as (_ & Hbt & _). pose proof (branch_le _ _ _ Hok Hbt) as Hle. change (t' <= s) in Hle. lia. }
    apply (I5 t Ht). intros f Hff. specialize (Hf f Hff). lia.
  - intros t β' ss Hβ' Hge Ht Hss. injection Hβ' as <-. change (known L t) in Ht. destruct (sv_known _ _ Hsv β t Hβ Ht ltac:(lia)) as (s0 & Hs0 & _).
    destruct (slot_acc _ _ _ _ _ t s0 Hph) as (ss2 & Hss2 & He); [by right|done|]. rewrite Hss in Hss2. injection Hss2 as <-. rewrite He. apply (I6 t β); [done|lia|done|done].
Qed.
Lemma confirm_again_step L st si F st' out : lg_ok L -> slot_inv L (st_slots st) -> known L (si_slot si) -> committed L (si_slot si) ->
  (forall f, lg_fin L = Some f -> f < si_slot si) -> process_slot F st si Confirmed = Done (st', out) -> st' = st.
Proof.
  intros Hok Hsv Hk Hcm Hf Hp. destruct (bottom_some _ _ Hok Hk) as (β & q & Hβ & Hq & _).
  assert (β <= si_slot si) as Hge.
  { unfold bottom in Hβ. destruct (lg_fin L) as [f|]; [specialize (Hf f eq_refl); assert (f = β) by congruence; lia|by apply (lo_min _ Hok)]. }
  destruct (sv_known _ _ Hsv β _ Hβ Hk Hge) as (ss & Hss & _ & Hc). destruct (Hc Hcm) as [_ Hc'].
  rewrite (announce_known F st si Confirmed ss) in Hp; [by injection Hp as <- <-|done| |done]. apply Hc'. intros Hfs. specialize (Hf _ Hfs). lia.
Qed.
