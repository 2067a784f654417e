(** A store that listens first and loads a snapshot while the stream is running shows the ledger (C104). *)
From Verif Require Import Base SMap DataModel FilterModel FilterProps BincodeModel BincodeProofs ByCommitModel ByCommitSpec ByCommitProofs
  StoreModel StoreSpec StoreProofs StoreSlot StoreViews StoreHist StoreProps SnapshotProps OwnerSpec OwnerProps LedgerSpec LedgerProofs LedgerInv LedgerSteps LedgerSlots LedgerFin LedgerRun
  LateSpec LateProofs LateProps LedgerProps LedgerQueryProps ReplicaSpec ReplicaProps.

(** ** What a snapshot of an orderly stream holds *)
Lemma snapshot_accounts E h L0 st F p bytes : orderly h L0 -> run E store_empty h = Done st -> lenN h < 2 ^ 64 ->
  (forall pk, steady h pk \/ closes_once h pk) -> owners_settle (delivered_in h) -> closed_apart (delivered_in h) -> loads_in_order h -> versions_differ h ->
  (forall a, delivered_in h a -> honest E a /\ acct_in_range a) -> create_snapshot E F st p = Done (ROk bytes) ->
  exists B, unbincode_accounts bytes = Some B /\ NoDup (map d_pubkey B) /\
    (forall b, b ∈ B -> in_ledger L0 (d_pubkey b) Finalized (Some b) /\ d_owner b = p) /\
    (forall a, in_ledger L0 (d_pubkey a) Finalized (Some a) -> alive a -> d_owner a = p -> a ∈ B).
Proof.
  intros Ho Hrun Hlen Hreg Hset Hap Hld Hdf Hhon Hs. unfold create_snapshot in Hs. destruct (get_program_accounts E F st p None Finalized) as [[B|]|] eqn:Hl; simpl in Hs; [|done|done]. injection Hs as Hby.
  assert (st_ok st) as Hok by (eapply run_ok; [apply st_ok_empty|done]). pose proof (gpa_nodup _ _ _ _ _ _ _ Hok Hl) as Hnd.
  assert (forall b, b ∈ B -> in_ledger L0 (d_pubkey b) Finalized (Some b) /\ d_owner b = p) as HB.
  { intros b Hb. apply (snap_entry E F st p B Hl) in Hb as (i & x & _ & Hx & Hg & Hown). split; [|done].
    assert (version_at st (d_pubkey b) Finalized = Some b) as Hv by (rewrite (version_at_entry st _ i x); [done|by eapply entry_index|done]).
    destruct (regular_of _ _ (Hreg (d_pubkey b))) as [m Hm]. destruct (pk_version m E _ h L0 st Finalized Ho Hrun Hm) as [H|(H & _)]; [by rewrite Hv in H|congruence]. }
  assert (forall b, b ∈ B -> delivered_in h b) as Hdel.
  { intros b Hb. destruct (HB b Hb) as [[[Hc _] _] _]. apply (orderly_received h L0); [done|]. destruct Hc as [?|[? _]]; auto. }
  exists B. split; [|split; [done|split; [done|]]].
  - rewrite <- Hby. apply unbincode_bincode.
    + apply Forall_forall. intros b Hb. apply Hhon, Hdel, Hb.
    + eapply N.le_lt_trans; [|exact Hlen]. unfold lenN. assert (length B <= length h)%nat; [|lia].
      pose proof (NoDup_map_inv _ _ Hnd) as HndB. etrans; [|apply given_length]. apply submseteq_length. apply NoDup_submseteq; [done|].
      intros b (G & o & Hin & Hd)%Hdel. by eapply orderly_given.
  - intros a Ha Hal Hown. destruct (C90_queries_show_ledger E h L0 st F p None Finalized B) as (_ & _ & Hall); try done.
    + intros x Hx. by apply Hhon.
    + destruct (Hall a Ha Hal Hown) as (b & Hb & H1 & _ & _ & _ & _ & H2 & H3 & _); [by intros l x Hx|].
      assert (b = a) as ->; [|done]. destruct (Hdel b Hb) as (G & o & Hi & Hd). destruct (orderly_received h L0 a Ho) as (G' & o' & Hi' & Hd'); [destruct Ha as [[[?|[? _]] _] _]; auto|].
      by apply (Hdf G o b G' o' a).
Qed.

(** ** What the listener knows.  [q] is the slot before the first one it heard of, which the snapshot settles; the listener has
    finalized the slot [f] of the snapshot, or [f] is [q]. *)
Section listener.
Context (L0 L Lg1 Lg : ledger) (f q r : N) (B : list acct) (p : pubkey).
Hypothesis Hok0 : lg_ok L0.
Hypothesis Hok : lg_ok L.
Hypothesis Hokg1 : lg_ok Lg1.
Hypothesis Hokg : lg_ok Lg.
Hypothesis Hf : lg_fin L0 = Some f.
Hypothesis Hg : grows L0 L.
Hypothesis Hg1 : grows Lg1 Lg.
Hypothesis Hr : lg_root Lg1 = Some r.
Hypothesis Hh : hears q L Lg.
Hypothesis Hq : branch L f q.
Hypothesis Hcu : caught_up L Lg1 q f.
Hypothesis HB : forall b, b ∈ B -> in_ledger L0 (d_pubkey b) Finalized (Some b) /\ d_owner b = p.
Hypothesis HBall : forall a, in_ledger L0 (d_pubkey a) Finalized (Some a) -> alive a -> d_owner a = p -> a ∈ B.

(** The accounts of the snapshot that are older than the listener's first slot. *)
Definition old_of : list acct := List.filter (fun b => d_slot b <? r) B.
Lemma old_of_in b : b ∈ old_of <-> b ∈ B /\ d_slot b < r.
Proof using All. unfold old_of. rewrite !elem_of_list_In, filter_In, N.ltb_lt. done. Qed.
Notation Lm := (rebase old_of Lg).
Lemma bs_root : lg_root Lg = Some r /\ q < r.
Proof using All. pose proof (gw_root _ _ Hg1) as H. rewrite Hr in H. split; [done|]. by destruct (lo_parent _ Hok _ _ (he_root _ _ _ Hh _ H)). Qed.
Lemma bs_known_f : known L0 f.
Proof using All. destruct (lo_fin _ Hok0 _ Hf) as (t & _ & _ & ?). done. Qed.
Lemma bs_known s : known Lg s -> r <= s.
Proof using All. intros Hk. by apply (lo_min _ Hokg _ _ Hk), bs_root. Qed.
Lemma bs_settled_counts c a : counts L0 Finalized a -> counts L c a.
Proof using All.
  intros [Ha|(Ha & t & Ht & Hb)]; [left; by rewrite (gw_base _ _ Hg)|right]. split; [by apply (gw_old _ _ Hg)|]. rewrite Hf in Ht. injection Ht as <-.
  apply (branch_more _ L) in Hb; [|apply (gw_parent _ _ Hg)]. destruct c; [done| |].
  - destruct (gw_comm _ _ Hg f (lo_fin _ Hok0 _ Hf)) as (t & Ht & Hb'). exists t. split; [done|]. by eapply branch_trans.
  - destruct (gw_fin _ _ Hg _ Hf) as (t & Ht & Hb'). exists t. split; [done|]. by eapply branch_trans.
Qed.
Lemma bs_heard_counts c a : counts Lm c a -> counts L c a.
Proof using All.
  intros [Ha|[Ha Hc]]; simpl in Ha; [apply old_of_in in Ha as [Ha _]; apply bs_settled_counts; by destruct (HB a Ha) as [[[? _] _] _]|].
  apply (he_writes _ _ _ Hh) in Ha as [Ha _]. right. split; [done|].
  destruct c; [done| |]; destruct Hc as (t & Ht & Hb); simpl in Ht; exists t.
  - rewrite (he_conf _ _ _ Hh), Ht. split; [done|]. eapply branch_more; [|exact Hb]. apply (he_parent _ _ _ Hh).
  - rewrite (he_fin _ _ _ Hh), Ht. split; [done|]. eapply branch_more; [|exact Hb]. apply (he_parent _ _ _ Hh).
Qed.
Lemma bs_heard_branch t s : known Lg t -> branch L t s -> branch L q s \/ branch Lg t s.
Proof using All.
  induction (N.lt_wf_0 t) as [t _ IH]. intros Hk Hb. apply branch_inv in Hb as [<-|(x & Hx & Hb)]; [right; by apply branch_refl|].
  destruct Hk as [x' Hx']. pose proof (he_parent _ _ _ Hh _ _ Hx') as Hx2. rewrite Hx in Hx2. injection Hx2 as <-.
  destruct (lo_parent _ Hokg _ _ Hx') as [Hlt [Hrt|Hkx]].
  - apply (he_root _ _ _ Hh) in Hrt. rewrite Hx in Hrt. injection Hrt as ->. by left.
  - destruct (IH x Hlt Hkx Hb) as [?|?]; [by left|right]. by eapply branch_up.
Qed.
Lemma bs_settled_write a : a ∈ lg_writes L -> branch L f (d_slot a) -> counts L0 Finalized a.
Proof using All.
  intros Ha Hb. apply (gw_back _ _ Hg) in Hb; [|apply bs_known_f]. apply (gw_new _ _ Hg) in Ha as [Ha|Ha].
  - right. split; [done|]. by exists f.
  - destruct Ha. eapply committed_branch; [by apply (lo_fin _ Hok0)|done].
Qed.
Lemma bs_counts_split c a : c <> Processed \/ hears_all q L Lg -> counts L c a -> counts L0 Finalized a \/ (a ∈ lg_writes Lg /\ counts Lm c a).
Proof using All.
  intros Hc [Ha|[Ha Hx]]; [left; left; by rewrite <- (gw_base _ _ Hg)|].
  assert (branch L q (d_slot a) -> counts L0 Finalized a) as Hset by (intros Hb; apply bs_settled_write; [done|]; by eapply branch_trans).
  assert (forall t, branch L t (d_slot a) -> t = q \/ known Lg t -> counts L0 Finalized a \/ (a ∈ lg_writes Lg /\ branch Lg t (d_slot a))) as Hsplit.
  { intros t Hb [->|Hk]; [left; auto|]. destruct (bs_heard_branch t _ Hk Hb) as [?|Hb']; [left; auto|right].
    split; [|done]. apply (he_writes _ _ _ Hh). split; [done|]. by destruct (branch_known _ _ _ Hb'). }
  destruct c.
  - destruct Hc as [Hc|Hc]; [done|]. destruct (Hc a Ha) as [Hk|Hb]; [right|left; auto].
    assert (a ∈ lg_writes Lg) as Hw by (by apply (he_writes _ _ _ Hh)). split; [done|]. by right.
  - destruct Hx as (t & Ht & Hb). rewrite (he_conf _ _ _ Hh) in Ht. injection Ht as <-. destruct (lg_conf Lg) as [t|] eqn:Hcg; simpl in Hb; [|left; auto].
    destruct (Hsplit t Hb) as [?|[Hw Hb']]; [right; by apply (lo_conf _ Hokg)|by left|right]. split; [done|]. right. split; [done|]. by exists t.
  - destruct Hx as (t & Ht & Hb). rewrite (he_fin _ _ _ Hh) in Ht. injection Ht as <-. destruct (lg_fin Lg) as [t|] eqn:Hcg; simpl in Hb; [|left; auto].
    destruct (Hsplit t Hb) as [?|[Hw Hb']]; [right; destruct (lo_fin _ Hokg _ Hcg) as (u & _ & _ & ?); done|by left|right]. split; [done|]. right. split; [done|]. by exists t.
Qed.
(** What the snapshot settles is older than the first slot, or final for the listener, too. *)
Lemma bs_settled a : counts L0 Finalized a -> d_slot a < r \/ counts Lg1 Finalized a.
Proof using All.
  intros Ha. destruct bs_root as [Hrg Hqr]. destruct (branch_known _ _ _ Hq) as [_ Hkq].
  destruct Ha as [Ha|(Ha & t & Ht & Hb)].
  { left. destruct (known_root _ _ Hok Hkq) as [r0 Hr0]. assert (a ∈ lg_base L) as Hab by (by rewrite (gw_base _ _ Hg)).
    pose proof (lo_base _ Hok _ _ Hab Hr0). pose proof (lo_min _ Hok _ _ Hkq Hr0). lia. }
  rewrite Hf in Ht. injection Ht as <-. apply (branch_more _ L) in Hb; [|apply (gw_parent _ _ Hg)]. apply (gw_old _ _ Hg) in Ha.
  destruct Hcu as [->|(f1 & Hf1 & Hbf)]; [left; pose proof (branch_le _ _ _ Hok Hb); lia|].
  assert (known Lg1 f1) as Hk1 by (destruct (lo_fin _ Hokg1 _ Hf1) as (u & _ & _ & ?); done).
  destruct (bs_heard_branch f1 (d_slot a)) as [Hbq|Hbg]; [by eapply grows_known|by eapply branch_trans|left; pose proof (branch_le _ _ _ Hok Hbq); lia|right].
  assert (a ∈ lg_writes Lg) as Haw by (apply (he_writes _ _ _ Hh); split; [done|]; by destruct (branch_known _ _ _ Hbg)).
  apply (gw_back _ _ Hg1) in Hbg; [|done]. right. split; [|by exists f1]. apply (gw_new _ _ Hg1) in Haw as [?|Hn]; [done|].
  destruct Hn. eapply committed_branch; [by apply (lo_fin _ Hokg1)|done].
Qed.
Lemma bs_base : lg_base Lg1 = [].
Proof using All. by rewrite <- (gw_base _ _ Hg1), (he_base _ _ _ Hh). Qed.
Lemma bs_final c a : counts Lg1 Finalized a -> a ∈ lg_writes Lg /\ counts Lm c a.
Proof using All.
  intros [Ha|(Ha & t & Ht & Hb)]; [by rewrite bs_base, elem_of_nil in Ha|]. apply (gw_old _ _ Hg1) in Ha. split; [done|].
  assert (counts Lg Finalized a) as Hc; [|destruct (settled_counts_all Lg c a Hokg Hc) as [Hx|Hx]; [by rewrite (he_base _ _ _ Hh), elem_of_nil in Hx|by right]].
  right. split; [done|]. destruct (gw_fin _ _ Hg1 _ Ht) as (f' & Hf' & Hb'). exists f'. split; [done|]. eapply branch_trans; [exact Hb'|].
  eapply branch_more; [|exact Hb]. apply (gw_parent _ _ Hg1).
Qed.
(** Everything the listener finds is the newest version, and it finds everything of the program [p]. *)
Lemma bs_heard_newest c pk a : c <> Processed \/ hears_all q L Lg -> in_ledger Lm pk c (Some a) -> in_ledger L pk c (Some a).
Proof using All.
  intros Hc [[Ha Hpk] Hmax]. split; [split; [by apply bs_heard_counts|done]|]. intros b [Hb Hbk]. destruct (bs_counts_split c b Hc Hb) as [Hs|[_ Hx]]; [|by apply Hmax].
  destruct Ha as [Ha|[Ha _]]; simpl in Ha.
  - apply old_of_in in Ha as [Ha _]. destruct (HB a Ha) as [[_ Hm] _]. apply Hm. split; [done|]. by rewrite Hbk, Hpk.
  - destruct (bs_settled b Hs) as [Hlt|Hs1]; [pose proof (bs_known _ (lo_writes _ Hokg _ Ha)); left; lia|]. apply Hmax. split; [|done]. by apply (bs_final c b Hs1).
Qed.
Lemma bs_newest_heard c pk a : c <> Processed \/ hears_all q L Lg -> in_ledger L pk c (Some a) -> alive a -> d_owner a = p \/ a ∈ lg_writes Lg -> in_ledger Lm pk c (Some a).
Proof using All.
  intros Hc [[Ha Hpk] Hmax] Hal Hown. split; [split; [|done]|intros b [Hb Hbk]; apply Hmax; split; [by apply bs_heard_counts|done]].
  destruct (bs_counts_split c a Hc Ha) as [Hs|[_ Hx]]; [|done]. destruct (bs_settled a Hs) as [Hlt|Hs1]; [|by apply (bs_final c a Hs1)].
  destruct Hown as [Hown|Hw]; [|pose proof (bs_known _ (lo_writes _ Hokg _ Hw)); lia].
  left. apply old_of_in. split; [|done]. apply HBall; [|done|done]. split; [done|]. intros b [Hb Hbk]. apply Hmax. split; [by apply bs_settled_counts|]. congruence.
Qed.
(** The loads fit into the stream. *)
Lemma bs_loads F' g1 : mixed g1 Lg1 -> forall B', (forall b, b ∈ B' -> b ∈ B) ->
  mixed (g1 ++ map (fun a => (F', OInit a)) B') (rebase (List.filter (fun b => d_slot b <? r) B') Lg1).
Proof using All.
  intros Hm B'. induction B' as [|b B' IH] using rev_ind; intros Hin.
  { simpl. rewrite app_nil_r. replace (rebase [] Lg1) with Lg1; [done|]. rewrite <- bs_base. by destruct Lg1. }
  rewrite map_app, app_assoc. simpl. eapply mx_snoc; [apply IH; intros x Hx; apply Hin, elem_of_app; by left|].
  rewrite List.filter_app. simpl. destruct (N.ltb_spec (d_slot b) r) as [Hlt|Hge].
  - by apply (le_load (rebase (List.filter (fun b => d_slot b <? r) B') Lg1) b r).
  - rewrite app_nil_r. apply le_again; [by exists r|]. assert (b ∈ B) as Hb by (apply Hin, elem_of_app; right; by left).
    destruct (HB b Hb) as [[[Hs _] _] _]. destruct (bs_settled b Hs) as [?|[Hx|Hx]]; [lia|by rewrite bs_base, elem_of_nil in Hx|by right].
Qed.
End listener.
Lemma rebase_onward X h L1 g L' : mixed h (rebase X L1) -> lg_ok L1 -> is_Some (lg_root L1) -> onward L1 g L' -> mixed (h ++ g) (rebase X L').
Proof.
  intros Hm Hok Hr Hon. induction Hon as [|g L F o L' Hon IH He]; [by rewrite app_nil_r|]. rewrite app_assoc. eapply mx_snoc; [exact IH|].
  pose proof (onward_ok _ _ _ Hok Hon) as Hok'. destruct (onward_grows _ _ _ Hok Hr Hon) as [Hroot _ _ _ _ _ _ _]. rewrite <- Hroot in Hr. destruct Hr as [r Hr].
  apply le_event. destruct He as [| | |a Hr0|si Hr0 Hlt Hbase|si Hn Hp Hlt| |a Hk Hc|si Hsp Hcf|si Hsp Hcm|si Hsp Hcm Hf]; try congruence.
  - apply ev_get.
  - apply ev_gpa.
  - apply ev_snap.
  - by apply (ev_slot (rebase X L)).
  - by apply (ev_slot_again (rebase X L)).
  - by apply (ev_write (rebase X L)).
  - by apply (ev_confirm (rebase X L)).
  - by apply (ev_confirm_again (rebase X L)).
  - by apply (ev_finalize (rebase X L)).
Qed.

(** ** The bootstrapped store *)
Lemma split3 {A} (x y z m1 m2 : list A) e : x ++ y ++ z = m1 ++ e :: m2 ->
  (exists w, x = m1 ++ e :: w /\ m2 = w ++ y ++ z) \/ (exists y1 y2, y = y1 ++ e :: y2 /\ m1 = x ++ y1 /\ m2 = y2 ++ z) \/ (exists w, z = w ++ e :: m2 /\ m1 = x ++ y ++ w).
Proof.
  assert (forall (u v : list A) n1, u ++ v = n1 ++ e :: m2 -> (exists w, u = n1 ++ e :: w /\ m2 = w ++ v) \/ (exists w, v = w ++ e :: m2 /\ n1 = u ++ w)) as H.
  { intros u v n1 Huv. apply app_eq_inv in Huv as [(w & -> & Hw)|(w & -> & Hw)]; [|right; by exists w].
    destruct w as [|e' w]; simpl in Hw; [right; exists []; by rewrite !app_nil_r|]. injection Hw as <- ->. left. by exists w. }
  intros [(w & -> & ->)|(w & Hyz & ->)]%H; [left; by exists w|]. apply H in Hyz as [(w' & -> & ->)|(w' & -> & ->)]; [right; left; by exists w, w'|right; right; by exists w'].
Qed.
Section bootstrap.
Context (E : ext) (h k g1 g2 : list (filt * op)) (L0 L Lg1 Lg : ledger) (f q : N) (F F' : filt) (p : pubkey) (st st' : store) (bytes : bytes).
Notation gg := (g1 ++ (F', OLoad p bytes) :: g2).
Hypothesis Ho : orderly h L0.
Hypothesis Hrun : run E store_empty h = Done st.
Hypothesis Hlen : lenN h < 2 ^ 64.
Hypothesis Hf : lg_fin L0 = Some f.
Hypothesis Hk : onward L0 k L.
Hypothesis Hint : forall pk, of_interest (h ++ k) gg F' pk.
Hypothesis Hset : owners_settle (delivered_in (h ++ k)).
Hypothesis Hap : closed_apart (delivered_in (h ++ k)).
Hypothesis Hld : loads_in_order h.
Hypothesis Hdf : versions_differ (h ++ k).
Hypothesis Hhon : forall a, delivered_in (h ++ k) a -> honest E a /\ acct_in_range a.
Hypothesis Hsnap : create_snapshot E F st p = Done (ROk bytes).
Hypothesis Ho1 : orderly g1 Lg1.
Hypothesis Hr1 : is_Some (lg_root Lg1).
Hypothesis Hon : onward Lg1 g2 Lg.
Hypothesis Hh : hears q L Lg.
Hypothesis Hq : branch L f q.
Hypothesis Hcu : caught_up L Lg1 q f.
Hypothesis Hrun' : run E store_empty gg = Done st'.

Lemma bt_reg pk : steady h pk \/ closes_once h pk.
Proof using All.
  destruct (Hint pk) as [[H _]|[H _]]; [left; by apply (regular_prefix false _ k)|right; by apply (regular_prefix true _ k)].
Qed.
Lemma bt_sub a : delivered_in h a -> delivered_in (h ++ k) a.
Proof using All. intros (G & o & Hin & Hd). exists G, o. split; [|done]. apply elem_of_app. by left. Qed.
Lemma bt_counted a : a ∈ lg_base L \/ a ∈ lg_writes L -> delivered_in (h ++ k) a.
Proof using All. intros H. exact (orderly_received _ _ _ (onward_orderly _ _ _ _ Ho Hk) H). Qed.
Lemma bt_same a b : delivered_in (h ++ k) a -> delivered_in (h ++ k) b -> d_pubkey a = d_pubkey b -> d_slot a = d_slot b -> d_wv a = d_wv b -> a = b.
Proof using All. intros (G & o & ? & ?) (G' & o' & ? & ?). by apply (Hdf G o a G' o' b). Qed.
Lemma bt_snapshot : exists B, unbincode_accounts bytes = Some B /\ NoDup (map d_pubkey B) /\
  (forall b, b ∈ B -> in_ledger L0 (d_pubkey b) Finalized (Some b) /\ d_owner b = p) /\
  (forall a, in_ledger L0 (d_pubkey a) Finalized (Some a) -> alive a -> d_owner a = p -> a ∈ B).
Proof using All.
  apply (snapshot_accounts E h L0 st F p bytes); try done.
  - apply bt_reg.
  - intros x y z Hx Hy Hz. apply Hset; by apply bt_sub.
  - intros x y Hx Hy. apply Hap; by apply bt_sub.
  - intros G o x G' o' y Hx Hy. apply (Hdf G o x G' o' y); apply elem_of_app; by left.
  - intros x Hx. by apply Hhon, bt_sub.
Qed.
Lemma bt_oks : lg_ok L0 /\ lg_ok L /\ lg_ok Lg1 /\ lg_ok Lg /\ grows L0 L /\ grows Lg1 Lg.
Proof using All.
  pose proof (orderly_ok _ _ Ho) as H0. pose proof (orderly_ok _ _ Ho1) as H1. split; [done|]. split; [exact (onward_ok _ _ _ H0 Hk)|]. split; [done|]. split; [exact (onward_ok _ _ _ H1 Hon)|].
  split; [|by eapply onward_grows].
  eapply onward_grows; [done| |done]. destruct (lo_fin _ H0 _ Hf) as (t & _ & _ & Hkn). destruct (known_root _ _ H0 Hkn) as [r Hr]. by exists r.
Qed.
Lemma bt_no_init G a : (G, OInit a) ∉ g1 ++ g2.
Proof using All.
  intros Hin. pose proof (orderly_delivers _ Lg G (OInit a) a (onward_orderly _ _ _ _ Ho1 Hon) Hin eq_refl) as H. simpl in H.
  rewrite (he_base _ _ _ Hh) in H. by apply elem_of_nil in H.
Qed.
Lemma bt_g G o a : (G, o) ∈ g1 ++ g2 -> delivers o a -> a ∈ lg_writes Lg.
Proof using All.
  intros Hin Hd. pose proof (orderly_delivers _ Lg G o a (onward_orderly _ _ _ _ Ho1 Hon) Hin Hd) as H. destruct o; try done. by destruct (bt_no_init G a0).
Qed.
Lemma bt_heard a : a ∈ lg_writes Lg -> delivered_in (h ++ k) a.
Proof using All. intros Ha. apply bt_counted. right. by apply (he_writes _ _ _ Hh) in Ha as [? _]. Qed.
Lemma bt_closed a b : closes_once (h ++ k) (d_pubkey a) -> delivered_in (h ++ k) a -> ~ alive a -> delivered_in (h ++ k) b -> d_pubkey b = d_pubkey a -> b = a \/ ~ version_le a b.
Proof using All.
  intros [_ Hc] (G & o & Hin & Hd) Hdead (G' & o' & Hin' & Hd') Hpk. apply elem_of_list_split in Hin as (h1 & h2 & Hsp).
  destruct (Hc h1 G o h2 a Hsp Hd eq_refl Hdead) as [H1 H2]. rewrite Hsp in Hin'. apply elem_of_app in Hin' as [Hin'|Hin']; [right; by apply (H1 G' o')|].
  apply elem_of_cons in Hin' as [Heq|Hin']; [|by destruct (H2 G' o' b)]. injection Heq as -> ->. left.
  apply (orderly_one (h ++ k) L G o); try done; [by apply (onward_orderly h L0)|]. rewrite Hsp. apply elem_of_app. right. by left.
Qed.
Section loaded.
Context (B : list acct).
Hypothesis HBu : unbincode_accounts bytes = Some B.
Hypothesis HBk : NoDup (map d_pubkey B).
Hypothesis HB : forall b, b ∈ B -> in_ledger L0 (d_pubkey b) Finalized (Some b) /\ d_owner b = p.
Hypothesis HBall : forall a, in_ledger L0 (d_pubkey a) Finalized (Some a) -> alive a -> d_owner a = p -> a ∈ B.
Notation mh := (g1 ++ map (fun a => (F', OInit a)) B ++ g2).
Lemma bt_run : run E store_empty mh = Done st'.
Proof using All.
  rewrite run_app. rewrite run_app in Hrun'. destruct (run E store_empty g1) as [s1|]; [|done]. simpl in Hrun' |- *.
  rewrite run_app, <- (C17_load_is_initialisations E F' s1 p bytes B HBu), <- run_app. exact Hrun'.
Qed.
Lemma bt_in_B b : b ∈ B -> delivered_in (h ++ k) b /\ counts L0 Finalized b.
Proof using All.
  intros Hb. destruct (HB b Hb) as [[[Hc _] _] _]. split; [|done]. apply bt_sub, (orderly_received h L0); [done|]. destruct Hc as [?|[? _]]; auto.
Qed.
Lemma bt_where G o : (G, o) ∈ mh -> (G, o) ∈ g1 ++ g2 \/ exists b, b ∈ B /\ G = F' /\ o = OInit b.
Proof using All.
  rewrite !elem_of_app. intros [?|[Hin|?]]; [by auto| |by auto]. right. apply elem_of_list_fmap in Hin as (b & Heq & Hb). injection Heq as -> ->. by exists b.
Qed.
Lemma bt_all G o a : (G, o) ∈ mh -> delivers o a -> delivered_in (h ++ k) a.
Proof using All.
  intros [Hin|(b & Hb & -> & ->)]%bt_where Hd; [by eapply bt_heard, bt_g|]. simpl in Hd. subst b. by apply bt_in_B.
Qed.
Lemma bt_filters G o : (G, o) ∈ mh -> filters_of F' gg G.
Proof using All.
  intros [Hin|(b & Hb & -> & ->)]%bt_where; [right; exists o|by left]. apply elem_of_app in Hin as [?|?]; apply elem_of_app; [by left|right; by right].
Qed.
(** One delivery after the other: the same holds before the snapshot is taken apart. *)
Lemma bt_after m1 G o m2 G' o' a b : mh = m1 ++ (G, o) :: m2 -> (G', o') ∈ m2 -> delivers o a -> delivers o' b -> d_pubkey a = d_pubkey b ->
  exists x1 X ox x2 X' ox', gg = x1 ++ (X, ox) :: x2 /\ delivers ox a /\ (X', ox') ∈ x2 /\ delivers ox' b.
Proof using All.
  intros Hsp Hin Hd Hd' Hpk. assert (forall b, b ∈ B -> delivers (OLoad p bytes) b) as Hload by (intros y Hy; exists B; done).
  assert (forall y (G2 : filt) (o2 : op), (G2, o2) ∈ map (fun a => (F', OInit a)) B -> delivers o2 y -> y ∈ B) as HinB.
  { intros y G2 o2 Hy Hdy. apply elem_of_list_fmap in Hy as (z & Heq & Hz). injection Heq as -> ->. simpl in Hdy. by subst z. }
  apply split3 in Hsp as [(w & Hg1 & ->)|[(y1 & y2 & Hy & -> & ->)|(w & Hg2 & ->)]].
  - exists m1, G, o, (w ++ (F', OLoad p bytes) :: g2). rewrite !elem_of_app in Hin. destruct Hin as [Hin|[Hin|Hin]].
    + exists G', o'. split; [by rewrite Hg1, <- app_assoc|]. split; [done|]. split; [|done]. apply elem_of_app. by left.
    + exists F', (OLoad p bytes). split; [by rewrite Hg1, <- app_assoc|]. split; [done|]. split; [|by eapply Hload, HinB]. apply elem_of_app. right. by left.
    + exists G', o'. split; [by rewrite Hg1, <- app_assoc|]. split; [done|]. split; [|done]. apply elem_of_app. right. by right.
  - apply elem_of_app in Hin as [Hin|Hin].
    + exfalso. apply map_eq_app in Hy as (B1 & B2' & HBs & HB1 & HB2). apply map_eq_cons in HB2 as (a' & B2 & -> & Heq & HB2).
      injection Heq as <- <-. simpl in Hd. subst a'. rewrite <- HB2 in Hin. apply elem_of_list_fmap in Hin as (b' & Heq & Hb). injection Heq as -> ->. simpl in Hd'. subst b'.
      rewrite HBs, map_app in HBk. simpl in HBk. apply NoDup_app in HBk as (_ & _ & Hd2). apply NoDup_cons in Hd2 as [Hd2 _]. apply Hd2. rewrite Hpk. apply elem_of_list_fmap; eauto.
    + exists g1, F', (OLoad p bytes), g2, G', o'. split; [done|]. split; [|done]. apply Hload. apply (HinB a G o); [|done]. rewrite Hy. apply elem_of_app. right. by left.
  - exists (g1 ++ (F', OLoad p bytes) :: w), G, o, m2, G', o'. split; [by rewrite Hg2, <- app_assoc|done].
Qed.
Lemma bt_regular pk : steady mh pk \/ closes_once mh pk.
Proof using All.
  destruct (Hint pk) as [[[_ Hs] Hfl]|(Hc & Hfl & Hlast)]; [left|right].
  - split; [intros G o G' o' a Hin Hin' Hd Hpk; apply Hfl; [by eapply bt_filters|by eapply bt_all|done]|].
    destruct Hs as [Hs|Hs]; [left|right].
    + intros G o a Hin Hd Hpk. destruct (bt_all G o a Hin Hd) as (G' & o' & ? & ?). by apply (Hs G' o').
    + intros G o a G' o' a' Hin Hin' Hd Hd' Hpk Hpk'. destruct (bt_all G o a Hin Hd) as (G1 & o1 & ? & ?). destruct (bt_all G' o' a' Hin' Hd') as (G2 & o2 & ? & ?). by apply (Hs G1 o1 a G2 o2).
  - split; [intros G o G' o' a Hin Hin' Hd Hpk Hal; apply Hfl; [by eapply bt_filters|by eapply bt_all|done|done]|].
    intros m1 G o m2 a Hsp Hd Hpk Hdead.
    assert (delivered_in (h ++ k) a) as Hda. { apply (bt_all G o); [|done]. rewrite Hsp. apply elem_of_app. right. by left. }
    assert (forall n1 X ox n2 X' ox' b, mh = n1 ++ (X, ox) :: n2 -> (X', ox') ∈ n2 -> delivers ox a -> delivers ox' b -> d_pubkey b <> pk) as Hno.
    { intros n1 X ox n2 X' ox' b Hn Hin Hda' Hdb Hbk. destruct (bt_after n1 X ox n2 X' ox' a b Hn Hin Hda' Hdb) as (x1 & Y & oy & x2 & Y' & oy' & H1 & H2 & H3 & H4); [congruence|].
      exact (Hlast x1 Y oy x2 a Y' oy' b H1 H2 Hpk Hdead H3 H4 Hbk). }
    split; [|intros G' o' b Hin Hd'; exact (Hno m1 G o m2 G' o' b Hsp Hin Hd Hd')].
    intros G' o' b Hin Hd' Hbk. assert (delivered_in (h ++ k) b) as Hdb. { apply (bt_all G' o'); [|done]. rewrite Hsp. apply elem_of_app. by left. }
    destruct (bt_closed a b) as [->|?]; [by rewrite Hpk|done|done|done|congruence| |done].
    apply elem_of_list_split in Hin as (x1 & x2 & ->). rewrite <- app_assoc in Hsp. simpl in Hsp. exfalso.
    apply (Hno x1 G' o' (x2 ++ (G, o) :: m2) G o a Hsp); [apply elem_of_app; right; by left|done|done|done].
Qed.
Lemma bt_mixed r : lg_root Lg1 = Some r -> mixed mh (rebase (old_of r B) Lg).
Proof using All.
  intros Hr. destruct bt_oks as (H0 & H1 & H2 & H3 & H4 & H5). rewrite app_assoc. apply (rebase_onward _ _ Lg1); [|done|done|done].
  by apply (bs_loads L0 L Lg1 Lg f q r B p H0 H1 H2 H3 Hf H4 H5 Hr Hh Hq Hcu HB HBall); [apply orderly_mixed|].
Qed.
Lemma bt_del a : delivered_in mh a -> delivered_in (h ++ k) a.
Proof using All. intros (G & o & Hin & Hd). by apply (bt_all G o). Qed.
Lemma bt_loads : owner_kept L0 g1 p -> loads_in_order mh.
Proof using All.
  intros Hown m1 G a m2 G' o b Hsp Hin Hd Hpk. 
  assert (forall w1 w2, g1 ++ g2 = w1 ++ (G, OInit a) :: w2 -> False) as Hno. { intros w1 w2 Hgs. apply (bt_no_init G a). rewrite Hgs. apply elem_of_app. right. by left. }
  apply split3 in Hsp as [(w & Hg1 & _)|[(y1 & y2 & Hy & -> & ->)|(w & Hg2 & _)]].
  - destruct (Hno m1 (w ++ g2)). by rewrite Hg1, <- app_assoc.
  - assert (a ∈ B) as Ha. { assert ((G, OInit a) ∈ map (fun a => (F', OInit a)) B) as Hx by (rewrite Hy; apply elem_of_app; right; by left).
      apply elem_of_list_fmap in Hx as (z & Heq & Hz). injection Heq as _ ->. done. }
    destruct (HB a Ha) as [Hla Hoa]. apply elem_of_app in Hin as [Hin|Hin].
    + rewrite Hoa. destruct (Hown G' o b a Hin Hd) as [Hx|Hx]; [by rewrite <- Hpk|done|by left|by right].
    + exfalso. apply map_eq_app in Hy as (B1 & B2' & HBs & HB1 & HB2). apply map_eq_cons in HB2 as (a' & B2 & -> & Heq & HB2). injection Heq as <- ->.
      rewrite <- HB1 in Hin. apply elem_of_list_fmap in Hin as (b' & Heq & Hb). injection Heq as -> ->. simpl in Hd. subst b'.
      rewrite HBs, map_app in HBk. simpl in HBk. apply NoDup_app in HBk as (_ & Hd1 & _). apply (Hd1 (d_pubkey b)); [apply elem_of_list_fmap; eauto|]. rewrite <- Hpk. by left.
  - destruct (Hno (g1 ++ w) m2). by rewrite Hg2, <- app_assoc.
Qed.
End loaded.
Lemma bt_reads pk c : c <> Processed \/ hears_all q L Lg -> exists x, get_account st' pk c = Done (ROk x) /\
  (forall a, x = Some a -> in_ledger L pk c (Some a) /\ alive a) /\
  (forall a, in_ledger L pk c (Some a) -> alive a -> d_owner a = p \/ a ∈ lg_writes Lg -> x = Some a).
Proof using All.
  intros Hc. destruct bt_snapshot as (B & HBu & HBk & HB & HBall). destruct bt_oks as (H0 & H1 & H2 & H3 & H4 & H5). destruct Hr1 as [r Hr].
  destruct (C102_late_loads_reads_show_ledger E _ _ st' pk c (bt_mixed B HBu HBk HB HBall r Hr) (bt_run B HBu HBk HB HBall) (bt_regular B HBu HBk HB HBall pk)) as (o & Hin & Hget).
  eexists. split; [exact Hget|]. split.
  - intros a Ha. destruct o as [b|]; [|done]. destruct (N.ltb_spec 0 (d_lamports b)) as [Hlt|]; [|done]. injection Ha as ->.
    split; [|done]. exact (bs_heard_newest L0 L Lg1 Lg f q r B p H0 H1 H2 H3 Hf H4 H5 Hr Hh Hq Hcu HB HBall c pk a Hc Hin).
  - intros a Ha Hal Hown. pose proof (bs_newest_heard L0 L Lg1 Lg f q r B p H0 H1 H2 H3 Hf H4 H5 Hr Hh Hq Hcu HB HBall c pk a Hc Ha Hal Hown) as Hin'.
    destruct o as [b|]; [|by destruct (Hin a (proj1 Hin'))]. pose proof (bs_heard_newest L0 L Lg1 Lg f q r B p H0 H1 H2 H3 Hf H4 H5 Hr Hh Hq Hcu HB HBall c pk b Hc Hin) as Hb.
    assert (b = a) as ->; [|unfold alive in Hal; by rewrite (proj2 (N.ltb_lt 0 (d_lamports a)) Hal)].
    destruct Ha as [[Hca Hka] Hma], Hb as [[Hcb Hkb] Hmb]. pose proof (Hma b (conj Hcb Hkb)) as Hv1. pose proof (Hmb a (conj Hca Hka)) as Hv2. unfold version_le in *.
    apply bt_same; [..|congruence|lia|lia]; apply bt_counted; [destruct Hcb as [?|[? _]]|destruct Hca as [?|[? _]]]; auto.
Qed.
Lemma bt_queries G x fl c l : owner_kept L0 g1 p ->
  c <> Processed \/ hears_all q L Lg -> get_program_accounts E G st' x fl c = Done (ROk l) ->
  NoDup (map d_pubkey l) /\
  (forall b, b ∈ l -> exists a, in_ledger L (d_pubkey b) c (Some a) /\ same_account E b a /\ d_owner b = x /\ meets E fl a) /\
  (forall a, in_ledger L (d_pubkey a) c (Some a) -> alive a -> d_owner a = x -> x = p \/ a ∈ lg_writes Lg -> meets E fl a -> exists b, b ∈ l /\ same_account E b a).
Proof using All.
  intros Hown Hc Hl. destruct bt_snapshot as (B & HBu & HBk & HB & HBall). destruct bt_oks as (H0 & H1 & H2 & H3 & H4 & H5). destruct Hr1 as [r Hr].
  pose proof (bt_del B HBu HBk HB HBall) as Hdel.
  destruct (C102_late_loads_queries_show_ledger E _ _ st' G x fl c l (bt_mixed B HBu HBk HB HBall r Hr) (bt_run B HBu HBk HB HBall) (bt_regular B HBu HBk HB HBall)) as (Q1 & Q2 & Q3); [..|exact Hl|].
  - intros u y z Hx Hy Hz. apply Hset; by apply Hdel.
  - intros u y Hx Hy. apply Hap; by apply Hdel.
  - by apply (bt_loads B HBu HBk HB HBall).
  - intros G1 o u G2 o2 y Hx Hy Dx Dy. apply bt_same; apply Hdel; [by exists G1, o|by exists G2, o2].
  - intros u Hx. by apply Hhon, Hdel.
  - split; [done|]. split.
    + intros b Hb. destruct (Q2 b Hb) as (a & Ha & H). exists a. split; [|done]. exact (bs_heard_newest L0 L Lg1 Lg f q r B p H0 H1 H2 H3 Hf H4 H5 Hr Hh Hq Hcu HB HBall c _ a Hc Ha).
    + intros a Ha Hal Hx Hw Hme. apply Q3; try done. apply (bs_newest_heard L0 L Lg1 Lg f q r B p H0 H1 H2 H3 Hf H4 H5 Hr Hh Hq Hcu HB HBall); try done. destruct Hw as [->|?]; auto.
Qed.
End bootstrap.

(** C104: a store that listens, loads a snapshot that settles the slot before the first one it heard of, and goes on listening, shows the ledger.  Missing: a snapshot that is
    ahead of what the listener has finalized. *)
Theorem C104_bootstrap_reads_partial : forall E h k g1 g2 L0 L Lg1 Lg f q F F' p st st' bytes pk c,
  orderly h L0 -> run E store_empty h = Done st -> lenN h < 2 ^ 64 -> lg_fin L0 = Some f -> onward L0 k L ->
  (forall pk', of_interest (h ++ k) (g1 ++ (F', OLoad p bytes) :: g2) F' pk') -> owners_settle (delivered_in (h ++ k)) -> closed_apart (delivered_in (h ++ k)) ->
  loads_in_order h -> versions_differ (h ++ k) -> (forall a, delivered_in (h ++ k) a -> honest E a /\ acct_in_range a) ->
  create_snapshot E F st p = Done (ROk bytes) -> orderly g1 Lg1 -> is_Some (lg_root Lg1) -> onward Lg1 g2 Lg -> hears q L Lg -> branch L f q -> caught_up L Lg1 q f ->
  run E store_empty (g1 ++ (F', OLoad p bytes) :: g2) = Done st' -> c <> Processed \/ hears_all q L Lg ->
  exists x, get_account st' pk c = Done (ROk x) /\
    (forall a, x = Some a -> in_ledger L pk c (Some a) /\ alive a) /\
    (forall a, in_ledger L pk c (Some a) -> alive a -> d_owner a = p \/ a ∈ lg_writes Lg -> x = Some a).
Proof.
  intros E h k g1 g2 L0 L Lg1 Lg f q F F' p st st' bytes pk c A1 A2 A3 A4 A5 A6 A7 A8 A9 A10 A11 A12 A13 A14 A15 A16 A17 A18 A19 A20.
  exact (bt_reads E h k g1 g2 L0 L Lg1 Lg f q F F' p st st' bytes A1 A2 A3 A4 A5 A6 A7 A8 A9 A10 A11 A12 A13 A14 A15 A16 A17 A18 A19 pk c A20).
Qed.
Print Assumptions C104_bootstrap_reads_partial.
Theorem C104_bootstrap_queries_partial : forall E h k g1 g2 L0 L Lg1 Lg f q F F' p st st' bytes G x fl c l,
  orderly h L0 -> run E store_empty h = Done st -> lenN h < 2 ^ 64 -> lg_fin L0 = Some f -> onward L0 k L ->
  (forall pk', of_interest (h ++ k) (g1 ++ (F', OLoad p bytes) :: g2) F' pk') -> owners_settle (delivered_in (h ++ k)) -> closed_apart (delivered_in (h ++ k)) ->
  loads_in_order h -> versions_differ (h ++ k) -> (forall a, delivered_in (h ++ k) a -> honest E a /\ acct_in_range a) ->
  create_snapshot E F st p = Done (ROk bytes) -> orderly g1 Lg1 -> is_Some (lg_root Lg1) -> onward Lg1 g2 Lg -> hears q L Lg -> branch L f q -> caught_up L Lg1 q f ->
  run E store_empty (g1 ++ (F', OLoad p bytes) :: g2) = Done st' -> owner_kept L0 g1 p -> c <> Processed \/ hears_all q L Lg ->
  get_program_accounts E G st' x fl c = Done (ROk l) ->
  NoDup (map d_pubkey l) /\
  (forall b, b ∈ l -> exists a, in_ledger L (d_pubkey b) c (Some a) /\ same_account E b a /\ d_owner b = x /\ meets E fl a) /\
  (forall a, in_ledger L (d_pubkey a) c (Some a) -> alive a -> d_owner a = x -> x = p \/ a ∈ lg_writes Lg -> meets E fl a -> exists b, b ∈ l /\ same_account E b a).
Proof.
  intros E h k g1 g2 L0 L Lg1 Lg f q F F' p st st' bytes G x fl c l A1 A2 A3 A4 A5 A6 A7 A8 A9 A10 A11 A12 A13 A14 A15 A16 A17 A18 A19 A20 A21 A22.
  exact (bt_queries E h k g1 g2 L0 L Lg1 Lg f q F F' p st st' bytes A1 A2 A3 A4 A5 A6 A7 A8 A9 A10 A11 A12 A13 A14 A15 A16 A17 A18 A19 G x fl c l A20 A21 A22).
Qed.
Print Assumptions C104_bootstrap_queries_partial.

(** ** Examples *)
(** The source finalizes slot 11 before the snapshot; the listener hears of the slots from 11 on, loads the snapshot with the version of slot 11 again and two accounts it has not heard of, of
    which one is closed afterwards. *)
Definition boot_h : list (filt * op) :=
  [ ini (mk_acct 5 7 1 [] 8 1); ini (mk_acct 6 7 1 [] 8 1); ini (mk_acct 9 7 4 [] 8 1); slt 10 9 Processed; upd (mk_acct 5 7 2 [] 10 2) Processed; slt 10 9 Confirmed; slt 10 9 Finalized;
    slt 11 10 Processed; upd (mk_acct 5 7 3 [] 11 3) Processed; slt 11 10 Confirmed; slt 11 10 Finalized ].
Definition boot_k : list (filt * op) :=
  [ slt 12 11 Processed; upd (mk_acct 5 8 4 [] 12 4) Processed; upd (mk_acct 6 0 0 [] 12 5) Processed; slt 12 11 Confirmed; slt 12 11 Finalized ].
Definition boot_g1 : list (filt * op) := [slt 11 10 Processed; upd (mk_acct 5 7 3 [] 11 3) Processed; slt 11 10 Confirmed; slt 11 10 Finalized].
Definition boot_gg : list (filt * op) := boot_g1 ++ (admit_all, OLoad 7 (rep_bytes boot_h 7)) :: boot_k.
Definition boot_loaded : list acct := [mk_acct 5 7 3 [] 11 3; mk_acct 6 7 1 [] 8 1; mk_acct 9 7 4 [] 8 1].
Lemma boot_bytes : unbincode_accounts (rep_bytes boot_h 7) = Some boot_loaded.
Proof. crunch. Qed.
Lemma boot_plain : plain (boot_h ++ boot_k).
Proof. by repeat constructor. Qed.
Lemma boot_filters G : filters_of admit_all boot_gg G -> G = admit_all.
Proof.
  intros [->|[o Hin]]; [done|]. unfold boot_gg, boot_g1, boot_k, slt, upd in Hin. rewrite !elem_of_app, !elem_of_cons, !elem_of_nil in Hin. destruct_or?; by simplify_eq.
Qed.
Lemma boot_interest pk : of_interest (boot_h ++ boot_k) boot_gg admit_all pk.
Proof.
  destruct (decide (pk = 6)) as [->|Hne]; [right|left].
  - split; [apply closesb_spec; [apply boot_plain|crunch]|]. split; [by intros G a ->%boot_filters|]. intros x1 G o x2 a G' o' b Hg Hd Hpk Hdead Hin Hd'.
    assert (Forall (fun x => forall y, ~ delivers (snd x) y) x2) as Hall; [|rewrite Forall_forall in Hall; by destruct (Hall _ Hin b)].
    unfold boot_gg, boot_g1, boot_k in Hg. simpl in Hg.
    do 4 (destruct x1 as [|? x1]; [simpl in Hg; injection Hg as <- <- <-; simpl in Hd; by subst|simpl in Hg; injection Hg as <- Hg]).
    destruct x1 as [|? x1]; simpl in Hg; [injection Hg as <- <- <-|injection Hg as <- Hg].
    { destruct Hd as (l & Hl & Ha). rewrite boot_bytes in Hl. injection Hl as <-. unfold boot_loaded in Ha. rewrite !elem_of_cons, elem_of_nil in Ha.
      destruct Ha as [->|[->|[->|[]]]]; by destruct Hdead. }
    do 2 (destruct x1 as [|? x1]; [simpl in Hg; injection Hg as <- <- <-; simpl in Hd; by subst|simpl in Hg; injection Hg as <- Hg]).
    destruct x1 as [|? x1]; simpl in Hg; [injection Hg as <- <- <-; repeat apply Forall_cons_2; try apply Forall_nil_2; intros y Hy; exact Hy|injection Hg as <- Hg].
    do 2 (destruct x1 as [|? x1]; [simpl in Hg; injection Hg as <- <- <-; by simpl in Hd|simpl in Hg; injection Hg as <- Hg]). by destruct x1.
  - split; [|by intros G a ->%boot_filters]. apply plain_steady; [apply boot_plain|].
    let l := eval vm_compute in (given (boot_h ++ boot_k)) in change (given (boot_h ++ boot_k)) with l.
    repeat apply Forall_cons_2; try apply Forall_nil_2; intros Heq; try done; simpl in Heq; by destruct Hne.
Qed.
Lemma boot_honest a : delivered_in (boot_h ++ boot_k) a -> honest ext_sample a /\ acct_in_range a.
Proof.
  intros Ha%plain_delivered; [|apply boot_plain]. assert (Forall (fun a => d_data a = DRaw [] /\ acct_in_range a) (given (boot_h ++ boot_k))) as Hall.
  { let l := eval vm_compute in (given (boot_h ++ boot_k)) in change (given (boot_h ++ boot_k)) with l. repeat (apply Forall_cons_2); try apply Forall_nil_2; (split; [done|]; vm_compute; repeat split; try done). }
  rewrite Forall_forall in Hall. destruct (Hall a Ha) as [Hd Hr]. split; [|done]. exists []. unfold FilterSpec.plain. by rewrite Hd.
Qed.
Example C104_bootstrap_reads_example :
  orderly boot_h (ledger_at boot_h) /\ run ext_sample store_empty boot_h = Done (final boot_h) /\ lenN boot_h < 2 ^ 64 /\ lg_fin (ledger_at boot_h) = Some 11 /\
  onward (ledger_at boot_h) boot_k (ledger_at (boot_h ++ boot_k)) /\ (forall pk, of_interest (boot_h ++ boot_k) boot_gg admit_all pk) /\
  owners_settle (delivered_in (boot_h ++ boot_k)) /\ closed_apart (delivered_in (boot_h ++ boot_k)) /\ loads_in_order boot_h /\ versions_differ (boot_h ++ boot_k) /\
  (forall a, delivered_in (boot_h ++ boot_k) a -> honest ext_sample a /\ acct_in_range a) /\
  create_snapshot ext_sample admit_all (final boot_h) 7 = Done (ROk (rep_bytes boot_h 7)) /\ orderly boot_g1 (ledger_at boot_g1) /\ is_Some (lg_root (ledger_at boot_g1)) /\
  onward (ledger_at boot_g1) boot_k (ledger_at (boot_g1 ++ boot_k)) /\ hears 10 (ledger_at (boot_h ++ boot_k)) (ledger_at (boot_g1 ++ boot_k)) /\
  branch (ledger_at (boot_h ++ boot_k)) 11 10 /\ caught_up (ledger_at (boot_h ++ boot_k)) (ledger_at boot_g1) 10 11 /\
  run ext_sample store_empty boot_gg = Done (final boot_gg) /\
  get_account (final boot_gg) 5 Finalized = Done (ROk (Some (mk_acct 5 8 4 [] 12 4))) /\ get_account (final boot_gg) 6 Finalized = Done (ROk None) /\
  get_account (final boot_gg) 9 Finalized = Done (ROk (Some (mk_acct 9 7 4 [] 8 1))).
Proof.
  pose proof boot_plain as Hp. split; [apply ledger_of_orderly; crunch|]. split; [crunch|]. split; [vm_compute; reflexivity|]. split; [crunch|]. split; [apply ledger_of_onward; crunch|]. split; [exact boot_interest|].
  split; [apply (settleb_spec (given (boot_h ++ boot_k))); [crunch|intros a; by apply plain_delivered]|].
  split; [apply (apartb_spec (given (boot_h ++ boot_k))); [crunch|intros a; by apply plain_delivered]|].
  split; [apply loadsb_spec; [by repeat constructor|crunch]|]. split; [apply differb_spec; [done|crunch]|]. split; [exact boot_honest|]. split; [crunch|].
  split; [apply ledger_of_orderly; crunch|]. split; [exists 11; crunch|]. split; [apply ledger_of_onward; crunch|]. split; [apply hearsb_spec; crunch|].
  split; [apply (branchb_spec fuel _ 11 10 true); crunch|]. split; [right; exists 11; split; [crunch|apply (branchb_spec fuel _ 11 11 true); crunch]|]. split_and!; crunch.
Qed.
Example C104_bootstrap_queries_example : owner_kept (ledger_at boot_h) boot_g1 7 /\
  get_program_accounts ext_sample admit_all (final boot_gg) 7 None Finalized = Done (ROk [mk_acct 9 7 4 [] 8 1]) /\
  get_program_accounts ext_sample admit_all (final boot_gg) 8 None Finalized = Done (ROk [mk_acct 5 8 4 [] 12 4]).
Proof.
  split; [|split; crunch]. intros G o b a Hin Hd _ _. left. unfold boot_g1, slt, upd in Hin. rewrite !elem_of_cons, elem_of_nil in Hin. destruct_or?; simplify_eq; simpl in Hd; by subst.
Qed.

(** FINDING: listening does not help when the snapshot is older than the slot before the first one heard of; the store then serves a version that the
    ledger has replaced, as finalized and for good. *)
Definition gap_h : list (filt * op) := [ini (mk_acct 5 7 1 [] 8 1); slt 10 9 Processed; slt 10 9 Confirmed; slt 10 9 Finalized].
Definition gap_k : list (filt * op) :=
  [ slt 11 10 Processed; upd (mk_acct 5 7 2 [] 11 2) Processed; slt 11 10 Confirmed; slt 11 10 Finalized; slt 12 11 Processed; slt 12 11 Confirmed; slt 12 11 Finalized ].
Definition gap_g1 : list (filt * op) := [slt 12 11 Processed; slt 12 11 Confirmed].
Definition gap_g2 : list (filt * op) := [slt 12 11 Finalized].
Definition gap_gg : list (filt * op) := gap_g1 ++ (admit_all, OLoad 7 (rep_bytes gap_h 7)) :: gap_g2.
Theorem C104_gap_refuted : exists E h k g1 g2 L0 L Lg1 Lg f q p st st' bytes pk a x,
  orderly h L0 /\ run E store_empty h = Done st /\ lg_fin L0 = Some f /\ onward L0 k L /\ plain (h ++ k) /\ (forall pk', steady (h ++ k) pk') /\
  create_snapshot E admit_all st p = Done (ROk bytes) /\ orderly g1 Lg1 /\ onward Lg1 g2 Lg /\ hears q L Lg /\ branch L q f /\
  run E store_empty (g1 ++ (admit_all, OLoad p bytes) :: g2) = Done st' /\
  in_ledger L pk Finalized (Some x) /\ alive x /\ d_owner x = p /\ get_account st' pk Finalized = Done (ROk (Some a)) /\ ~ version_le x a.
Proof.
  assert (plain (gap_h ++ gap_k)) as Hp by (by repeat constructor).
  exists ext_sample, gap_h, gap_k, gap_g1, gap_g2, (ledger_at gap_h), (ledger_at (gap_h ++ gap_k)), (ledger_at gap_g1), (ledger_at (gap_g1 ++ gap_g2)), 10, 11, 7, (final gap_h), (final gap_gg),
    (rep_bytes gap_h 7), 5, (mk_acct 5 7 1 [] 8 1), (mk_acct 5 7 2 [] 11 2).
  assert (orderly (gap_h ++ gap_k) (ledger_at (gap_h ++ gap_k))) as Ho by (apply ledger_of_orderly; crunch).
  split; [apply ledger_of_orderly; crunch|]. split; [crunch|]. split; [crunch|]. split; [apply ledger_of_onward; crunch|]. split; [done|].
  split; [intros pk; apply plain_steady; [done|vm_compute; repeat constructor]|]. split; [crunch|]. split; [apply ledger_of_orderly; crunch|]. split; [apply ledger_of_onward; crunch|].
  split; [apply hearsb_spec; crunch|]. split; [apply (branchb_spec fuel _ 11 10 true); crunch|]. split; [crunch|]. split.
  - split; [split; [|done]|].
    + right. split; [vm_compute; repeat constructor|]. exists 12. split; [crunch|]. apply (branchb_spec fuel _ 12 11 true). crunch.
    + intros a [Ha _]. assert (a ∈ given (gap_h ++ gap_k)) as Hg by (apply plain_delivered; [done|]; apply (orderly_received _ _ _ Ho); destruct Ha as [?|[? _]]; auto).
      let l := eval vm_compute in (given (gap_h ++ gap_k)) in change (given (gap_h ++ gap_k)) with l in Hg. rewrite !elem_of_cons, elem_of_nil in Hg.
      destruct Hg as [->|[->|[]]]; unfold version_le; simpl; lia.
  - split; [vm_compute; reflexivity|]. split; [done|]. split; [crunch|]. apply newerb_spec. crunch.
Qed.
Print Assumptions C104_gap_refuted.
(** FINDING: when the listener has heard that an account of the snapshot belongs to another program by now, the query of the snapshot's program does not find the
    version of the snapshot, although it is the finalized one. *)
Definition moved_h : list (filt * op) := [ini (mk_acct 5 7 1 [] 8 1); slt 10 9 Processed; slt 10 9 Confirmed; slt 10 9 Finalized].
Definition moved_k : list (filt * op) := [slt 11 10 Processed; upd (mk_acct 5 8 2 [] 11 2) Processed].
Definition moved_gg : list (filt * op) := moved_k ++ [(admit_all, OLoad 7 (rep_bytes moved_h 7))].
Theorem C104_moved_refuted : exists E h k L0 L Lg f p st st' bytes a,
  orderly h L0 /\ run E store_empty h = Done st /\ lg_fin L0 = Some f /\ onward L0 k L /\ plain (h ++ k) /\ (forall pk', steady (h ++ k) pk') /\
  create_snapshot E admit_all st p = Done (ROk bytes) /\ orderly k Lg /\ hears f L Lg /\
  run E store_empty (k ++ [(admit_all, OLoad p bytes)]) = Done st' /\
  in_ledger L (d_pubkey a) Finalized (Some a) /\ alive a /\ d_owner a = p /\ get_account st' (d_pubkey a) Finalized = Done (ROk (Some a)) /\
  get_program_accounts E admit_all st' p None Finalized = Done (ROk []).
Proof.
  assert (plain (moved_h ++ moved_k)) as Hp by (by repeat constructor).
  exists ext_sample, moved_h, moved_k, (ledger_at moved_h), (ledger_at (moved_h ++ moved_k)), (ledger_at moved_k), 10, 7, (final moved_h), (final moved_gg), (rep_bytes moved_h 7), (mk_acct 5 7 1 [] 8 1).
  assert (orderly (moved_h ++ moved_k) (ledger_at (moved_h ++ moved_k))) as Ho by (apply ledger_of_orderly; crunch).
  split; [apply ledger_of_orderly; crunch|]. split; [crunch|]. split; [crunch|]. split; [apply ledger_of_onward; crunch|]. split; [done|].
  split; [intros pk; apply plain_steady; [done|vm_compute; repeat constructor]|]. split; [crunch|]. split; [apply ledger_of_orderly; crunch|].
  split; [apply hearsb_spec; crunch|]. split; [crunch|]. split.
  - split; [split; [|done]|].
    + left. vm_compute. repeat constructor.
    + intros a [Ha _]. assert (a ∈ given (moved_h ++ moved_k)) as Hg by (apply plain_delivered; [done|]; apply (orderly_received _ _ _ Ho); destruct Ha as [?|[? _]]; auto).
      destruct Ha as [Ha|(Ha & t & Ht & Hb)].
      * let l := eval vm_compute in (lg_base (ledger_at (moved_h ++ moved_k))) in change (lg_base (ledger_at (moved_h ++ moved_k))) with l in Ha. apply elem_of_list_singleton in Ha as ->. unfold version_le; simpl; lia.
      * assert (lg_fin (ledger_at (moved_h ++ moved_k)) = Some 10) as Hf by crunch. rewrite Hf in Ht. injection Ht as <-.
        let l := eval vm_compute in (lg_writes (ledger_at (moved_h ++ moved_k))) in change (lg_writes (ledger_at (moved_h ++ moved_k))) with l in Ha. apply elem_of_list_singleton in Ha as ->.
        exfalso. revert Hb. apply (branchb_spec fuel _ 10 11 false). crunch.
  - split; [vm_compute; reflexivity|]. split; [done|]. split; crunch.
Qed.
Print Assumptions C104_moved_refuted.
