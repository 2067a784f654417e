(** A store started from a snapshot and the rest of the stream shows the ledger (C101). *)
From Verif Require Import Base SMap DataModel FilterModel FilterProps BincodeModel BincodeProofs ByCommitModel ByCommitSpec ByCommitProofs
  StoreModel StoreSpec StoreProofs StoreSlot StoreViews StoreHist StoreProps SnapshotProps OwnerSpec OwnerProps LedgerSpec LedgerProofs LedgerInv LedgerSteps LedgerSlots LedgerFin LedgerRun
  LedgerProps LedgerQueryProps ReplicaSpec.

(** ** The ledger grows *)
Record grows (L L' : ledger) : Prop := Grows {
  gw_root : lg_root L' = lg_root L;
  gw_base : lg_base L' = lg_base L;
  gw_parent : forall s q, lg_parent L !! s = Some q -> lg_parent L' !! s = Some q;
  gw_old : forall a, a ∈ lg_writes L -> a ∈ lg_writes L';
  gw_new : forall a, a ∈ lg_writes L' -> a ∈ lg_writes L \/ ~ committed L (d_slot a);
  gw_comm : forall s, committed L s -> committed L' s;
  gw_fin : forall f, lg_fin L = Some f -> exists f', lg_fin L' = Some f' /\ branch L' f' f;
  gw_back : forall t s, known L t -> branch L' t s -> branch L t s }.
Lemma grows_refl L : lg_ok L -> grows L L.
Proof.
  intros Hok. constructor; auto. intros f Hf. exists f. split; [done|]. apply branch_refl. destruct (lo_fin _ Hok _ Hf) as (t & _ & _ & ?). done.
Qed.
Lemma grows_known L L' s : grows L L' -> known L s -> known L' s.
Proof. intros H [q Hq]. exists q. by apply (gw_parent _ _ H). Qed.
Lemma grows_trans L1 L2 L3 : grows L1 L2 -> grows L2 L3 -> grows L1 L3.
Proof.
  intros H1 H2. constructor.
  - by rewrite (gw_root _ _ H2), (gw_root _ _ H1).
  - by rewrite (gw_base _ _ H2), (gw_base _ _ H1).
  - intros s q H. by apply (gw_parent _ _ H2), (gw_parent _ _ H1).
  - intros a H. by apply (gw_old _ _ H2), (gw_old _ _ H1).
  - intros a [Ha|Ha]%(gw_new _ _ H2); [by apply (gw_new _ _ H1)|]. right. intros Hc. by apply Ha, (gw_comm _ _ H1).
  - intros s H. by apply (gw_comm _ _ H2), (gw_comm _ _ H1).
  - intros f (f1 & Hf1 & Hb1)%(gw_fin _ _ H1). destruct (gw_fin _ _ H2 _ Hf1) as (f2 & Hf2 & Hb2). exists f2. split; [done|]. eapply branch_trans; [exact Hb2|].
    eapply branch_more; [|exact Hb1]. apply (gw_parent _ _ H2).
  - intros t s Hk H. apply (gw_back _ _ H1); [done|]. apply (gw_back _ _ H2); [|done]. by eapply grows_known.
Qed.
Lemma event_grows L o L' : lg_ok L -> is_Some (lg_root L) -> event L o L' -> grows L L'.
Proof.
  intros Hok [r0 Hr0] He. destruct He as [| | |a Hr|si Hr Hlt Hbase|si Hn Hp Hlt| |a Hk Hc|si Hsp Hcf|si Hsp Hcm|si Hsp Hcm Hf]; try congruence; try by apply grows_refl.
  - destruct (new_slot_fresh L (si_slot si) Hok) as [_ Hno]; [right; eauto|].
    assert (forall x y, lg_parent L !! x = Some y -> <[si_slot si := si_parent si]> (lg_parent L) !! x = Some y) as Hm.
    { intros x y Hxy. rewrite lookup_insert_ne; [done|]. intros <-. apply Hn. by exists y. }
    constructor; simpl; auto.
    + intros s (t & Ht & Hb). exists t. split; [done|]. by eapply branch_more; [|exact Hb].
    + intros f Hf. exists f. split; [done|]. eapply branch_more; [exact Hm|]. apply branch_refl. destruct (lo_fin _ Hok _ Hf) as (t & _ & _ & ?). done.
    + intros t s Hkt Hb. eapply branch_less; [| |exact Hno| |exact Hb]; [done|done|]. intros ->. done.
  - constructor; simpl; auto.
    + intros x Hx. apply elem_of_app. by left.
    + intros x [Hx| ->%elem_of_list_singleton]%elem_of_app; [by left|by right].
    + intros f Hf. exists f. split; [done|]. apply branch_refl. destruct (lo_fin _ Hok _ Hf) as (t & _ & _ & ?). done.
  - constructor; simpl; auto.
    + intros s (t & Ht & Hb). rewrite Ht in Hcf. exists (si_slot si). split; [done|]. eapply branch_up; [exact Hsp|]. eapply branch_trans; [exact (proj1 Hcf)|exact Hb].
    + intros f Hf. exists f. split; [done|]. apply branch_refl. destruct (lo_fin _ Hok _ Hf) as (t & _ & _ & ?). done.
  - constructor; simpl; auto. intros f Hf0. exists (si_slot si). split; [done|]. destruct (lo_fin _ Hok _ Hf0) as (t & Ht & Hb). destruct Hcm as (t' & Ht' & Hb').
    rewrite Ht in Ht'. injection Ht' as <-. apply (branch_linear L t); try done. specialize (Hf f Hf0). lia.
Qed.
Lemma onward_ok L0 k L : lg_ok L0 -> onward L0 k L -> lg_ok L.
Proof. intros Hok. induction 1; [done|]. by eapply lg_ok_event. Qed.
Lemma onward_grows L0 k L : lg_ok L0 -> is_Some (lg_root L0) -> onward L0 k L -> grows L0 L.
Proof.
  intros Hok Hr. induction 1 as [|k L F o L' Hon IH He]; [by apply grows_refl|]. eapply grows_trans; [exact IH|].
  apply (event_grows L o); [by eapply onward_ok|by rewrite (gw_root _ _ IH)|done].
Qed.
Lemma onward_orderly h L0 k L : orderly h L0 -> onward L0 k L -> orderly (h ++ k) L.
Proof. intros Ho. induction 1 as [|k L F o L' _ IH He]; [by rewrite app_nil_r|]. rewrite app_assoc. by eapply od_snoc. Qed.

(** ** A stream on top of loaded accounts *)
Definition rebase (B : list acct) (L : ledger) : ledger := Ledger B (lg_root L) (lg_parent L) (lg_writes L) (lg_conf L) (lg_fin L).
Lemma event_base L o L' : event L o L' -> lg_base L' = [] -> lg_base L = [].
Proof. intros He. destruct He; simpl; try done. by destruct (lg_base L). Qed.
Lemma event_root L o L' r : lg_ok L -> event L o L' -> lg_root L = Some r -> lg_root L' = Some r.
Proof. intros Hok He. destruct He; simpl; try done; congruence. Qed.
Lemma rebase_branch B L t s : branch (rebase B L) t s <-> branch L t s.
Proof. done. Qed.
Lemma orderly_rebase F B g Lg : orderly g Lg -> lg_base Lg = [] -> (forall r a, lg_root Lg = Some r -> a ∈ B -> d_slot a < r) ->
  orderly (map (fun a => (F, OInit a)) B ++ g) (rebase B Lg).
Proof.
  intros Ho. induction Ho as [|g L G o L' Ho IH He]; intros Hb Hr.
  - rewrite app_nil_r. clear Hr Hb. induction B as [|a B IH] using rev_ind; [constructor|]. rewrite map_app. simpl. eapply od_snoc; [exact IH|]. by apply (ev_load (rebase B no_ledger)).
  - rewrite app_assoc. pose proof (event_base _ _ _ He Hb) as Hb0. pose proof (orderly_ok _ _ Ho) as Hok.
    eapply od_snoc; [apply IH; [done|]; intros r a H; apply Hr; by eapply event_root|].
    destruct He as [| | |a Hr0|si Hr0 Hlt Hbase|si Hn Hp Hlt| |a Hk Hc|si Hsp Hcf|si Hsp Hcm|si Hsp Hcm Hf].
    + apply ev_get.
    + apply ev_gpa.
    + apply ev_snap.
    + simpl in Hb. by destruct (lg_base L).
    + apply (ev_root (rebase B L)); [done|done|]. intros a Ha. by apply (Hr (si_slot si)).
    + by apply (ev_slot (rebase B L)).
    + by apply (ev_slot_again (rebase B L)).
    + by apply (ev_write (rebase B L)).
    + by apply (ev_confirm (rebase B L)).
    + by apply (ev_confirm_again (rebase B L)).
    + by apply (ev_finalize (rebase B L)).
Qed.

(** ** What the listener knows *)
Section listener.
Context (L0 L Lg : ledger) (f : N) (B : list acct) (p : pubkey).
Hypothesis Hok0 : lg_ok L0.
Hypothesis Hok : lg_ok L.
Hypothesis Hokg : lg_ok Lg.
Hypothesis Hf : lg_fin L0 = Some f.
Hypothesis Hg : grows L0 L.
Hypothesis Hh : hears f L Lg.
Hypothesis HB : forall b, b ∈ B -> in_ledger L0 (d_pubkey b) Finalized (Some b) /\ d_owner b = p.
Hypothesis HBall : forall a, in_ledger L0 (d_pubkey a) Finalized (Some a) -> alive a -> d_owner a = p -> a ∈ B.

Lemma known_f : known L0 f.
Proof using All. destruct (lo_fin _ Hok0 _ Hf) as (t & _ & _ & ?). done. Qed.
Lemma root_above r : lg_root Lg = Some r -> f < r.
Proof using All. intros Hr. destruct (lo_parent _ Hok _ _ (he_root _ _ _ Hh _ Hr)). done. Qed.
Lemma known_above s : known Lg s -> f < s.
Proof using All. intros Hk. destruct (known_root _ _ Hokg Hk) as [r Hr]. pose proof (lo_min _ Hokg _ _ Hk Hr). pose proof (root_above r Hr). lia. Qed.
Lemma settled_slot a : counts L0 Finalized a -> d_slot a <= f.
Proof using All.
  intros [Ha|(_ & t & Ht & Hb)]; [|rewrite Hf in Ht; injection Ht as <-; exact (branch_le _ _ _ Hok0 Hb)].
  destruct (known_root _ _ Hok0 known_f) as [r Hr]. pose proof (lo_base _ Hok0 _ _ Ha Hr). pose proof (lo_min _ Hok0 _ _ known_f Hr). lia.
Qed.
Lemma settled_older a a' : counts L0 Finalized a -> a' ∈ lg_writes Lg -> ~ version_le a' a.
Proof using All.
  intros Ha%settled_slot Ha'. pose proof (known_above _ (lo_writes _ Hokg _ Ha')). unfold version_le. lia.
Qed.
Lemma conf_on : exists t, lg_conf L = Some t /\ branch L t f.
Proof using All. destruct (gw_comm _ _ Hg f (lo_fin _ Hok0 _ Hf)) as (t & Ht & Hb). eauto. Qed.
Lemma settled_counts c a : counts L0 Finalized a -> counts L c a.
Proof using All.
  intros [Ha|(Ha & t & Ht & Hb)]; [left; by rewrite (gw_base _ _ Hg)|right]. split; [by apply (gw_old _ _ Hg)|]. rewrite Hf in Ht. injection Ht as <-.
  apply (branch_more _ L) in Hb; [|apply (gw_parent _ _ Hg)]. destruct c; [done| |].
  - destruct conf_on as (t & Ht & Hb'). exists t. split; [done|]. by eapply branch_trans.
  - destruct (gw_fin _ _ Hg _ Hf) as (t & Ht & Hb'). exists t. split; [done|]. by eapply branch_trans.
Qed.
Lemma heard_counts c a : counts (rebase B Lg) c a -> counts L c a.
Proof using All.
  intros [Ha|[Ha Hc]]; simpl in Ha; [apply settled_counts; by destruct (HB a Ha) as [[[? _] _] _]|]. apply (he_writes _ _ _ Hh) in Ha as [Ha _]. right. split; [done|].
  destruct c; [done| |]; destruct Hc as (t & Ht & Hb); simpl in Ht; exists t.
  - rewrite (he_conf _ _ _ Hh), Ht. split; [done|]. eapply branch_more; [|exact Hb]. apply (he_parent _ _ _ Hh).
  - rewrite (he_fin _ _ _ Hh), Ht. split; [done|]. eapply branch_more; [|exact Hb]. apply (he_parent _ _ _ Hh).
Qed.
Lemma heard_branch t s : known Lg t -> branch L t s -> branch L f s \/ branch Lg t s.
Proof using All.
  induction (N.lt_wf_0 t) as [t _ IH]. intros Hk Hb. apply branch_inv in Hb as [<-|(q & Hq & Hb)]; [right; by apply branch_refl|].
  destruct Hk as [q' Hq']. pose proof (he_parent _ _ _ Hh _ _ Hq') as Hq2. rewrite Hq in Hq2. injection Hq2 as <-.
  destruct (lo_parent _ Hokg _ _ Hq') as [Hlt [Hr|Hkq]].
  - apply (he_root _ _ _ Hh) in Hr. rewrite Hq in Hr. injection Hr as ->. by left.
  - destruct (IH q Hlt Hkq Hb) as [?|?]; [by left|right]. by eapply branch_up.
Qed.
Lemma settled_write a : a ∈ lg_writes L -> branch L f (d_slot a) -> counts L0 Finalized a.
Proof using All.
  intros Ha Hb. apply (gw_back _ _ Hg) in Hb; [|apply known_f]. apply (gw_new _ _ Hg) in Ha as [Ha|Ha].
  - right. split; [done|]. by exists f.
  - destruct Ha. eapply committed_branch; [by apply (lo_fin _ Hok0)|done].
Qed.
Lemma counts_split c a : c <> Processed \/ hears_all f L Lg -> counts L c a -> counts L0 Finalized a \/ (a ∈ lg_writes Lg /\ counts (rebase B Lg) c a).
Proof using All.
  intros Hc [Ha|[Ha Hx]]; [left; left; by rewrite <- (gw_base _ _ Hg)|].
  assert (forall t, branch L t (d_slot a) -> t = f \/ known Lg t -> counts L0 Finalized a \/ (a ∈ lg_writes Lg /\ branch Lg t (d_slot a))) as Hsplit.
  { intros t Hb [->|Hk]; [left; by apply settled_write|]. destruct (heard_branch t _ Hk Hb) as [?|Hb']; [left; by apply settled_write|right].
    split; [|done]. apply (he_writes _ _ _ Hh). split; [done|]. by destruct (branch_known _ _ _ Hb'). }
  destruct c.
  - destruct Hc as [Hc|Hc]; [done|]. destruct (Hc a Ha) as [Hk|Hb]; [right|left; by apply settled_write].
    assert (a ∈ lg_writes Lg) as Hw by (by apply (he_writes _ _ _ Hh)). split; [done|]. by right.
  - destruct Hx as (t & Ht & Hb). rewrite (he_conf _ _ _ Hh) in Ht. injection Ht as <-. destruct (lg_conf Lg) as [t|] eqn:Hcg; simpl in Hb.
    + destruct (Hsplit t Hb) as [?|[Hw Hb']]; [right; by apply (lo_conf _ Hokg)|by left|right]. split; [done|]. right. split; [done|]. by exists t.
    + destruct (Hsplit f Hb) as [?|[Hw Hb']]; [by left|by left|]. left. apply settled_write; [|done]. by apply (he_writes _ _ _ Hh) in Hw as [? _].
  - destruct Hx as (t & Ht & Hb). rewrite (he_fin _ _ _ Hh) in Ht. injection Ht as <-. destruct (lg_fin Lg) as [t|] eqn:Hcg; simpl in Hb.
    + destruct (Hsplit t Hb) as [?|[Hw Hb']]; [right; destruct (lo_fin _ Hokg _ Hcg) as (u & _ & _ & ?); done|by left|right]. split; [done|]. right. split; [done|]. by exists t.
    + left. by apply settled_write.
Qed.
(** Everything the listener finds is the newest version, and it finds everything of the program [p]. *)
Lemma heard_newest c pk a : c <> Processed \/ hears_all f L Lg -> in_ledger (rebase B Lg) pk c (Some a) -> in_ledger L pk c (Some a).
Proof using All.
  intros Hc [[Ha Hpk] Hmax]. split; [split; [by apply heard_counts|done]|]. intros b [Hb Hbk]. destruct (counts_split c b Hc Hb) as [Hs|[_ Hr]]; [|by apply Hmax].
  destruct Ha as [Ha|[Ha _]]; simpl in Ha.
  - destruct (HB a Ha) as [[_ Hm] _]. apply Hm. split; [done|]. by rewrite Hbk, Hpk.
  - pose proof (settled_slot _ Hs). pose proof (known_above _ (lo_writes _ Hokg _ Ha)). left. lia.
Qed.
Lemma newest_heard c pk a : c <> Processed \/ hears_all f L Lg -> in_ledger L pk c (Some a) -> alive a -> d_owner a = p \/ a ∈ lg_writes Lg -> in_ledger (rebase B Lg) pk c (Some a).
Proof using All.
  intros Hc [[Ha Hpk] Hmax] Hal Hown. split; [split; [|done]|intros b [Hb Hbk]; apply Hmax; split; [by apply heard_counts|done]].
  destruct (counts_split c a Hc Ha) as [Hs|[_ Hr]]; [|done]. destruct Hown as [Hown|Hw]; [|destruct (settled_older a a Hs Hw); right; lia].
  left. apply HBall; [|done|done]. split; [done|]. intros b [Hb Hbk]. apply Hmax. split; [by apply settled_counts|]. congruence.
Qed.
End listener.

(** ** The calls of the listener *)
Lemma event_delivers L o L' a : event L o L' -> delivers o a -> match o with OInit _ => a ∈ lg_base L' | _ => a ∈ lg_writes L' end.
Proof. intros He Hd. destruct He; simpl in *; try done; subst; apply elem_of_app; right; by apply elem_of_list_singleton. Qed.
Lemma event_keeps L o L' a : event L o L' -> (a ∈ lg_base L -> a ∈ lg_base L') /\ (a ∈ lg_writes L -> a ∈ lg_writes L').
Proof. intros He. destruct He; simpl in *; try done; rewrite ?elem_of_app; auto. Qed.
Lemma orderly_delivers h L F o a : orderly h L -> (F, o) ∈ h -> delivers o a -> match o with OInit _ => a ∈ lg_base L | _ => a ∈ lg_writes L end.
Proof.
  intros Ho. induction Ho as [|h L G o' L' _ IH He]; intros Hin Hd; [by apply elem_of_nil in Hin|].
  apply elem_of_app in Hin as [Hin|Hin]; [|apply elem_of_list_singleton in Hin; injection Hin as <- <-; by apply (event_delivers L)].
  specialize (IH Hin Hd). destruct (event_keeps _ _ _ a He) as [H1 H2]. destruct o; auto.
Qed.
Lemma orderly_given h L F o a : orderly h L -> (F, o) ∈ h -> delivers o a -> a ∈ given h.
Proof.
  intros Ho Hin Hd. apply elem_of_list_omap. exists (F, o). split; [done|]. destruct o as [b c|b| | | | |q b]; simpl in *; try done; [by subst..|].
  exfalso. clear Hd a. induction Ho as [|h L G o' L' _ IH He]; [by apply elem_of_nil in Hin|]. apply elem_of_app in Hin as [Hin|Hin]; [by apply IH|].
  apply elem_of_list_singleton in Hin. injection Hin as <- <-. inversion He.
Qed.
Lemma given_length h : (length (given h) <= length h)%nat.
Proof. unfold given. induction h as [|x h IH]; [done|].
  change (omap given1 (x :: h)) with (match given1 x with Some y => y :: omap given1 h | None => omap given1 h end). destruct (given1 x); simpl; lia. Qed.

(** ** The replica *)
Section replica.
Context (E : ext) (h k g : list (filt * op)) (L0 L Lg : ledger) (f : N) (F F' : filt) (p : pubkey) (st st' : store) (bytes : bytes).
Hypothesis Ho : orderly h L0.
Hypothesis Hrun : run E store_empty h = Done st.
Hypothesis Hlen : lenN h < 2 ^ 64.
Hypothesis Hf : lg_fin L0 = Some f.
Hypothesis Hk : onward L0 k L.
Hypothesis Hint : forall pk, of_interest (h ++ k) g F' pk.
Hypothesis Hset : owners_settle (delivered_in (h ++ k)).
Hypothesis Hap : closed_apart (delivered_in (h ++ k)).
Hypothesis Hld : loads_in_order h.
Hypothesis Hdf : versions_differ (h ++ k).
Hypothesis Hhon : forall a, delivered_in (h ++ k) a -> honest E a /\ acct_in_range a.
Hypothesis Hsnap : create_snapshot E F st p = Done (ROk bytes).
Hypothesis Hog : orderly g Lg.
Hypothesis Hh : hears f L Lg.
Hypothesis Hrun' : run E store_empty ((F', OLoad p bytes) :: g) = Done st'.

Lemma rp_reg pk : steady h pk \/ closes_once h pk.
Proof using All.
  destruct (Hint pk) as [[H _]|[H _]]; [left; by apply (regular_prefix false _ k)|right; by apply (regular_prefix true _ k)].
Qed.
Lemma rp_sub a : delivered_in h a -> delivered_in (h ++ k) a.
Proof using All. intros (G & o & Hin & Hd). exists G, o. split; [|done]. apply elem_of_app. by left. Qed.
Lemma rp_counted a : a ∈ lg_base L \/ a ∈ lg_writes L -> delivered_in (h ++ k) a.
Proof using All. intros H. exact (orderly_received _ _ _ (onward_orderly _ _ _ _ Ho Hk) H). Qed.
Lemma rp_same a b : delivered_in (h ++ k) a -> delivered_in (h ++ k) b -> d_pubkey a = d_pubkey b -> d_slot a = d_slot b -> d_wv a = d_wv b -> a = b.
Proof using All. intros (G & o & ? & ?) (G' & o' & ? & ?). by apply (Hdf G o a G' o' b). Qed.
Lemma rp_grows : lg_ok L0 /\ lg_ok L /\ lg_ok Lg /\ grows L0 L.
Proof using All.
  pose proof (orderly_ok _ _ Ho) as H0. pose proof (orderly_ok _ _ Hog) as Hg. split; [done|]. split; [exact (onward_ok _ _ _ H0 Hk)|]. split; [done|].
  eapply onward_grows; [done| |done]. destruct (lo_fin _ H0 _ Hf) as (t & _ & _ & Hkn). destruct (known_root _ _ H0 Hkn) as [r Hr]. by exists r.
Qed.
(** The accounts in the snapshot. *)
Lemma rp_snapshot : exists B, unbincode_accounts bytes = Some B /\ NoDup (map d_pubkey B) /\
  (forall b, b ∈ B -> in_ledger L0 (d_pubkey b) Finalized (Some b) /\ d_owner b = p) /\
  (forall a, in_ledger L0 (d_pubkey a) Finalized (Some a) -> alive a -> d_owner a = p -> a ∈ B).
Proof using All.
  pose proof Hsnap as Hs. unfold create_snapshot in Hs. destruct (get_program_accounts E F st p None Finalized) as [[B|]|] eqn:Hl; simpl in Hs; [|done|done]. injection Hs as Hby.
  assert (st_ok st) as Hok by (eapply run_ok; [apply st_ok_empty|done]). pose proof (gpa_nodup _ _ _ _ _ _ _ Hok Hl) as Hnd.
  assert (forall b, b ∈ B -> in_ledger L0 (d_pubkey b) Finalized (Some b) /\ d_owner b = p) as HB.
  { intros b Hb. apply (snap_entry E F st p B Hl) in Hb as (i & x & _ & Hx & Hg & Hown). split; [|done].
    assert (version_at st (d_pubkey b) Finalized = Some b) as Hv by (rewrite (version_at_entry st _ i x); [done|by eapply entry_index|done]).
    destruct (regular_of _ _ (rp_reg (d_pubkey b))) as [m Hm]. destruct (pk_version m E _ h L0 st Finalized Ho Hrun Hm) as [H|(H & _)]; [by rewrite Hv in H|congruence]. }
  assert (forall b, b ∈ B -> delivered_in h b) as Hdel.
  { intros b Hb. destruct (HB b Hb) as [[[Hc _] _] _]. apply (orderly_received h L0); [done|]. destruct Hc as [?|[? _]]; auto. }
  exists B. split; [|split; [done|split; [done|]]].
  - rewrite <- Hby. apply unbincode_bincode.
    + apply Forall_forall. intros b Hb. apply Hhon, rp_sub, Hdel, Hb.
    + eapply N.le_lt_trans; [|exact Hlen]. unfold lenN. assert (length B <= length h)%nat; [|lia].
      pose proof (NoDup_map_inv _ _ Hnd) as HndB. etrans; [|apply given_length]. apply submseteq_length. apply NoDup_submseteq; [done|].
      intros b (G & o & Hin & Hd)%Hdel. by eapply orderly_given.
  - intros a Ha Hal Hown. destruct (C90_queries_show_ledger E h L0 st F p None Finalized B) as (_ & _ & Hall); try done.
    + apply rp_reg.
    + intros x y z Hx Hy Hz. apply Hset; by apply rp_sub.
    + intros x y Hx Hy. apply Hap; by apply rp_sub.
    + intros G o x G' o' y Hx Hy. apply (Hdf G o x G' o' y); apply elem_of_app; by left.
    + intros x Hx. by apply Hhon, rp_sub.
    + destruct (Hall a Ha Hal Hown) as (b & Hb & H1 & _ & _ & _ & _ & H2 & H3 & _); [by intros l x Hx|].
      assert (b = a) as ->; [|done]. apply rp_same; try done; [by apply rp_sub, Hdel|]. apply rp_sub, (orderly_received h L0); [done|]. destruct Ha as [[[?|[? _]] _] _]; auto.
Qed.
Lemma rp_heard a : a ∈ lg_writes Lg -> delivered_in (h ++ k) a.
Proof using All. intros Ha. apply rp_counted. right. by apply (he_writes _ _ _ Hh) in Ha as [? _]. Qed.
Lemma rp_no_init G a : (G, OInit a) ∉ g.
Proof using All. intros Hin. pose proof (orderly_delivers g Lg G (OInit a) a Hog Hin eq_refl) as H. simpl in H. rewrite (he_base _ _ _ Hh) in H. by apply elem_of_nil in H. Qed.
Lemma rp_g G o a : (G, o) ∈ g -> delivers o a -> a ∈ lg_writes Lg.
Proof using All. intros Hin Hd. pose proof (orderly_delivers g Lg G o a Hog Hin Hd) as H. destruct o; try done. by destruct (rp_no_init G a0). Qed.
(** A closed version is the newest. *)
Lemma rp_closed a b : closes_once (h ++ k) (d_pubkey a) -> delivered_in (h ++ k) a -> ~ alive a -> delivered_in (h ++ k) b -> d_pubkey b = d_pubkey a -> b = a \/ ~ version_le a b.
Proof using All.
  intros [_ Hc] (G & o & Hin & Hd) Hdead (G' & o' & Hin' & Hd') Hpk. apply elem_of_list_split in Hin as (h1 & h2 & Hsp).
  destruct (Hc h1 G o h2 a Hsp Hd eq_refl Hdead) as [H1 H2]. rewrite Hsp in Hin'. apply elem_of_app in Hin' as [Hin'|Hin']; [right; by apply (H1 G' o')|].
  apply elem_of_cons in Hin' as [Heq|Hin']; [|by destruct (H2 G' o' b)]. injection Heq as -> ->. left.
  apply (orderly_one (h ++ k) L G o); try done; [by apply (onward_orderly h L0)|]. rewrite Hsp. apply elem_of_app. right. by left.
Qed.
Section loaded.
Context (B : list acct).
Hypothesis HBk : NoDup (map d_pubkey B).
Hypothesis HB : forall b, b ∈ B -> in_ledger L0 (d_pubkey b) Finalized (Some b) /\ d_owner b = p.
Hypothesis HBall : forall a, in_ledger L0 (d_pubkey a) Finalized (Some a) -> alive a -> d_owner a = p -> a ∈ B.
Notation rh := (map (fun a => (F', OInit a)) B ++ g).
Lemma rp_in_B b : b ∈ B -> delivered_in (h ++ k) b /\ counts L0 Finalized b.
Proof using All.
  intros Hb. destruct (HB b Hb) as [[[Hc _] _] _]. split; [|done]. apply rp_sub, (orderly_received h L0); [done|]. destruct Hc as [?|[? _]]; auto.
Qed.
Lemma rp_all G o a : (G, o) ∈ rh -> delivers o a -> delivered_in (h ++ k) a.
Proof using All.
  intros [Hin|Hin]%elem_of_app Hd; [|by eapply rp_heard, rp_g]. apply elem_of_list_fmap in Hin as (b & Heq & Hb). injection Heq as -> ->. simpl in Hd. subst b. by apply rp_in_B.
Qed.
Lemma rp_filters G o : (G, o) ∈ rh -> filters_of F' g G.
Proof using All.
  intros [Hin|Hin]%elem_of_app; [|right; eauto]. apply elem_of_list_fmap in Hin as (b & Heq & Hb). injection Heq as -> ->. by left.
Qed.
Lemma rp_root r a : lg_root Lg = Some r -> a ∈ B -> d_slot a < r.
Proof using All.
  intros Hr Ha. destruct rp_grows as (H0 & H1 & H2 & Hg). pose proof (root_above L0 L Lg f B p H0 H1 H2 Hf Hg Hh HB HBall r Hr).
  pose proof (settled_slot L0 L Lg f B p H0 H1 H2 Hf Hg Hh HB HBall a (proj2 (rp_in_B a Ha))). lia.
Qed.
Lemma rp_orderly : orderly rh (rebase B Lg).
Proof using All. apply orderly_rebase; [done|apply Hh|apply rp_root]. Qed.
Lemma rp_regular pk : steady rh pk \/ closes_once rh pk.
Proof using All.
  destruct rp_grows as (H0 & H1 & H2 & Hg). destruct (Hint pk) as [[[_ Hs] Hfl]|(Hc & Hfl & Hlast)]; [left|right].
  - split; [intros G o G' o' a Hin Hin' Hd Hpk; apply Hfl; [by eapply rp_filters|by eapply rp_all|done]|].
    destruct Hs as [Hs|Hs]; [left|right].
    + intros G o a Hin Hd Hpk. destruct (rp_all G o a Hin Hd) as (G' & o' & ? & ?). by apply (Hs G' o').
    + intros G o a G' o' a' Hin Hin' Hd Hd' Hpk Hpk'. destruct (rp_all G o a Hin Hd) as (G1 & o1 & ? & ?). destruct (rp_all G' o' a' Hin' Hd') as (G2 & o2 & ? & ?). by apply (Hs G1 o1 a G2 o2).
  - split; [intros G o G' o' a Hin Hin' Hd Hpk Hal; apply Hfl; [by eapply rp_filters|by eapply rp_all|done|done]|].
    intros r1 G o r2 a Hsp Hd Hpk Hdead.
    assert (delivered_in (h ++ k) a) as Hda. { apply (rp_all G o); [|done]. rewrite Hsp. apply elem_of_app. right. by left. }
    assert (forall b, delivered_in (h ++ k) b -> d_pubkey b = pk -> b = a \/ ~ version_le a b) as Hnew. { intros b Hb Hbk. apply rp_closed; try done; congruence. }
    assert (forall (B1 B2 : list acct) b, B = B1 ++ a :: B2 -> b ∈ B1 \/ b ∈ B2 -> d_pubkey b <> pk) as Hone.
    { intros B1 B2 b HBs Hb Hbk. rewrite HBs, map_app in HBk. simpl in HBk. apply NoDup_app in HBk as (_ & Hd1 & Hd2). apply NoDup_cons in Hd2 as [Hd2 _].
      assert (d_pubkey b = d_pubkey a) as Heq by congruence. destruct Hb as [Hb|Hb].
      - apply (Hd1 (d_pubkey b)); [apply elem_of_list_fmap; eauto|]. rewrite Heq. by left.
      - apply Hd2. rewrite <- Heq. apply elem_of_list_fmap; eauto. }
    assert (forall r, r1 = map (fun a => (F', OInit a)) B ++ r -> g = r ++ (G, o) :: r2 ->
      (forall G' o' b, (G', o') ∈ r1 -> delivers o' b -> d_pubkey b = pk -> ~ version_le a b) /\ (forall G' o' b, (G', o') ∈ r2 -> delivers o' b -> d_pubkey b <> pk)) as Hlate.
    { intros r -> Hgs. assert (a ∈ lg_writes Lg) as Haw. { apply (rp_g G o); [|done]. rewrite Hgs. apply elem_of_app. right. by left. }
      split; [|intros G' o' b Hin Hd'; by eapply Hlast].
      intros G' o' b Hin Hd' Hbk. assert (delivered_in (h ++ k) b) as Hdb. { apply (rp_all G' o'); [|done]. rewrite Hsp. apply elem_of_app. by left. }
      apply elem_of_app in Hin as [Hin|Hin].
      - apply elem_of_list_fmap in Hin as (b' & Heq & Hb). injection Heq as -> ->. simpl in Hd'. subst b'.
        exact (settled_older L0 L Lg f B p H0 H1 H2 Hf Hg Hh HB HBall b a (proj2 (rp_in_B b Hb)) Haw).
      - destruct (Hnew b Hdb Hbk) as [->|?]; [|done]. apply elem_of_list_split in Hin as (x1 & x2 & ->).
        assert (g = x1 ++ (G', o') :: (x2 ++ (G, o) :: r2)) as Hgs' by (rewrite Hgs, <- app_assoc; done).
        destruct (Hlast x1 G' o' (x2 ++ (G, o) :: r2) a G o a Hgs' Hd' Hpk Hdead); [apply elem_of_app; right; by left|done|done]. }
    apply app_eq_inv in Hsp as [(r & Hr1 & Hr2)|(r & Hr1 & Hr2)]; [|by apply (Hlate r)].
    destruct r as [|x r]; simpl in Hr2; [apply (Hlate []); [by rewrite app_nil_r in Hr1 |- *; rewrite Hr1|by rewrite Hr2]|].
    injection Hr2 as <- ->. apply map_eq_app in Hr1 as (B1 & B2' & HBs & HB1 & HB2). apply map_eq_cons in HB2 as (a' & B2 & -> & Heq & HB2).
    injection Heq as <- <-. simpl in Hd. subst a'. split.
    + intros G' o' b Hin Hd' Hbk. rewrite <- HB1 in Hin. apply elem_of_list_fmap in Hin as (b' & Heq & Hb). injection Heq as -> ->. simpl in Hd'. subst b'. by destruct (Hone B1 B2 b HBs (or_introl Hb)).
    + intros G' o' b [Hin|Hin]%elem_of_app Hd'.
      * rewrite <- HB2 in Hin. apply elem_of_list_fmap in Hin as (b' & Heq & Hb). injection Heq as -> ->. simpl in Hd'. subst b'. exact (Hone B1 B2 b HBs (or_intror Hb)).
      * intros Hbk. pose proof (rp_g G' o' b Hin Hd') as Hbw. destruct (rp_in_B a) as [_ Hca]; [rewrite HBs; apply elem_of_app; right; by left|].
        pose proof (settled_older L0 L Lg f B p H0 H1 H2 Hf Hg Hh HB HBall a b Hca Hbw) as Hnle.
        destruct (Hnew b (rp_heard b Hbw) Hbk) as [->|Hn]; [apply Hnle, version_le_refl|]. unfold version_le in *. lia.
Qed.
Lemma rp_loads : loads_in_order rh.
Proof using All.
  intros r1 G a r2 G' o b Hsp Hin Hd Hpk. exfalso.
  assert (forall r, g = r ++ (G, OInit a) :: r2 -> False) as Hno. { intros r Hgs. apply (rp_no_init G a). rewrite Hgs. apply elem_of_app. right. by left. }
  apply app_eq_inv in Hsp as [(r & Hr1 & Hr2)|(r & Hr1 & Hr2)]; [|by eapply Hno]. destruct r as [|x r]; simpl in Hr2; [by apply (Hno [])|].
  injection Hr2 as <- ->. apply map_eq_app in Hr1 as (B1 & B2' & HBs & HB1 & HB2). apply map_eq_cons in HB2 as (a' & B2 & -> & Heq & HB2).
  injection Heq as <- ->. rewrite <- HB1 in Hin. apply elem_of_list_fmap in Hin as (b' & Heq & Hb). injection Heq as -> ->. simpl in Hd. subst b'.
  rewrite HBs, map_app in HBk. simpl in HBk. apply NoDup_app in HBk as (_ & Hd1 & _). apply (Hd1 (d_pubkey b)); [apply elem_of_list_fmap; eauto|]. rewrite <- Hpk. by left.
Qed.
Lemma rp_del a : delivered_in rh a -> delivered_in (h ++ k) a.
Proof using All. intros (G & o & Hin & Hd). by apply (rp_all G o). Qed.
End loaded.
Lemma rp_run B : unbincode_accounts bytes = Some B -> run E store_empty (map (fun a => (F', OInit a)) B ++ g) = Done st'.
Proof using All.
  intros HB. rewrite run_app, <- (C17_load_is_initialisations E F' store_empty p bytes B HB), <- run_app. exact Hrun'.
Qed.
Lemma rp_reads pk c : c <> Processed \/ hears_all f L Lg -> exists x, get_account st' pk c = Done (ROk x) /\
  (forall a, x = Some a -> in_ledger L pk c (Some a) /\ alive a) /\
  (forall a, in_ledger L pk c (Some a) -> alive a -> d_owner a = p \/ a ∈ lg_writes Lg -> x = Some a).
Proof using All.
  intros Hc. destruct rp_snapshot as (B & HBu & HBk & HB & HBall). destruct rp_grows as (H0 & H1 & H2 & Hg).
  destruct (C89_reads_show_ledger E _ (rebase B Lg) st' pk c (rp_orderly B HBk HB HBall) (rp_run B HBu) (rp_regular B HBk HB HBall pk)) as (o & Hin & Hget).
  eexists. split; [exact Hget|]. split.
  - intros a Ha. destruct o as [b|]; [|done]. destruct (N.ltb_spec 0 (d_lamports b)) as [Hlt|]; [|done]. injection Ha as ->.
    split; [|done]. exact (heard_newest L0 L Lg f B p H0 H1 H2 Hf Hg Hh HB HBall c pk a Hc Hin).
  - intros a Ha Hal Hown. pose proof (newest_heard L0 L Lg f B p H0 H1 H2 Hf Hg Hh HB HBall c pk a Hc Ha Hal Hown) as Hin'.
    destruct o as [b|]; [|by destruct (Hin a (proj1 Hin'))]. pose proof (heard_newest L0 L Lg f B p H0 H1 H2 Hf Hg Hh HB HBall c pk b Hc Hin) as Hb.
    assert (b = a) as ->; [|unfold alive in Hal; by rewrite (proj2 (N.ltb_lt 0 (d_lamports a)) Hal)].
    destruct Ha as [[Hca Hka] Hma], Hb as [[Hcb Hkb] Hmb]. pose proof (Hma b (conj Hcb Hkb)) as Hv1. pose proof (Hmb a (conj Hca Hka)) as Hv2. unfold version_le in *.
    apply rp_same; [..|congruence|lia|lia]; apply rp_counted; [destruct Hcb as [?|[? _]]|destruct Hca as [?|[? _]]]; auto.
Qed.
Lemma rp_queries G q fl c l : c <> Processed \/ hears_all f L Lg -> get_program_accounts E G st' q fl c = Done (ROk l) ->
  NoDup (map d_pubkey l) /\
  (forall b, b ∈ l -> exists a, in_ledger L (d_pubkey b) c (Some a) /\ same_account E b a /\ d_owner b = q /\ meets E fl a) /\
  (forall a, in_ledger L (d_pubkey a) c (Some a) -> alive a -> d_owner a = q -> q = p \/ a ∈ lg_writes Lg -> meets E fl a -> exists b, b ∈ l /\ same_account E b a).
Proof using All.
  intros Hc Hl. destruct rp_snapshot as (B & HBu & HBk & HB & HBall). destruct rp_grows as (H0 & H1 & H2 & Hg).
  pose proof (rp_del B HBk HB HBall) as Hdel.
  destruct (C90_queries_show_ledger E _ (rebase B Lg) st' G q fl c l (rp_orderly B HBk HB HBall) (rp_run B HBu) (rp_regular B HBk HB HBall)) as (Q1 & Q2 & Q3); [..|exact Hl|].
  - intros x y z Hx Hy Hz. apply Hset; by apply Hdel.
  - intros x y Hx Hy. apply Hap; by apply Hdel.
  - apply (rp_loads B HBk HB HBall).
  - intros G1 o x G2 o2 y Hx Hy Dx Dy. apply rp_same; apply Hdel; [by exists G1, o|by exists G2, o2].
  - intros x Hx. by apply Hhon, Hdel.
  - split; [done|]. split.
    + intros b Hb. destruct (Q2 b Hb) as (a & Ha & H). exists a. split; [|done]. exact (heard_newest L0 L Lg f B p H0 H1 H2 Hf Hg Hh HB HBall c _ a Hc Ha).
    + intros a Ha Hal Hq Hown Hme. apply Q3; try done. apply (newest_heard L0 L Lg f B p H0 H1 H2 Hf Hg Hh HB HBall); try done. destruct Hown as [->|?]; auto.
Qed.
End replica.

(** C101: a store that starts from a snapshot, and then gets the stream from the first slot after the snapshot on, shows the ledger. *)
Theorem C101_replica_reads_show_ledger : forall E h k g L0 L Lg f F F' p st st' bytes pk c,
  orderly h L0 -> run E store_empty h = Done st -> lenN h < 2 ^ 64 -> lg_fin L0 = Some f -> onward L0 k L ->
  (forall pk', of_interest (h ++ k) g F' pk') -> owners_settle (delivered_in (h ++ k)) -> closed_apart (delivered_in (h ++ k)) ->
  loads_in_order h -> versions_differ (h ++ k) -> (forall a, delivered_in (h ++ k) a -> honest E a /\ acct_in_range a) ->
  create_snapshot E F st p = Done (ROk bytes) -> orderly g Lg -> hears f L Lg -> run E store_empty ((F', OLoad p bytes) :: g) = Done st' ->
  c <> Processed \/ hears_all f L Lg ->
  exists x, get_account st' pk c = Done (ROk x) /\
    (forall a, x = Some a -> in_ledger L pk c (Some a) /\ alive a) /\
    (forall a, in_ledger L pk c (Some a) -> alive a -> d_owner a = p \/ a ∈ lg_writes Lg -> x = Some a).
Proof.
  intros E h k g L0 L Lg f F F' p st st' bytes pk c A1 A2 A3 A4 A5 A6 A7 A8 A9 A10 A11 A12 A13 A14 A15 A16. exact (rp_reads E h k g L0 L Lg f F F' p st st' bytes A1 A2 A3 A4 A5 A6 A7 A8 A9 A10 A11 A12 A13 A14 A15 pk c A16).
Qed.
Print Assumptions C101_replica_reads_show_ledger.
Theorem C101_replica_queries_show_ledger : forall E h k g L0 L Lg f F F' p st st' bytes G q fl c l,
  orderly h L0 -> run E store_empty h = Done st -> lenN h < 2 ^ 64 -> lg_fin L0 = Some f -> onward L0 k L ->
  (forall pk', of_interest (h ++ k) g F' pk') -> owners_settle (delivered_in (h ++ k)) -> closed_apart (delivered_in (h ++ k)) ->
  loads_in_order h -> versions_differ (h ++ k) -> (forall a, delivered_in (h ++ k) a -> honest E a /\ acct_in_range a) ->
  create_snapshot E F st p = Done (ROk bytes) -> orderly g Lg -> hears f L Lg -> run E store_empty ((F', OLoad p bytes) :: g) = Done st' ->
  c <> Processed \/ hears_all f L Lg -> get_program_accounts E G st' q fl c = Done (ROk l) ->
  NoDup (map d_pubkey l) /\
  (forall b, b ∈ l -> exists a, in_ledger L (d_pubkey b) c (Some a) /\ same_account E b a /\ d_owner b = q /\ meets E fl a) /\
  (forall a, in_ledger L (d_pubkey a) c (Some a) -> alive a -> d_owner a = q -> q = p \/ a ∈ lg_writes Lg -> meets E fl a -> exists b, b ∈ l /\ same_account E b a).
Proof.
  intros E h k g L0 L Lg f F F' p st st' bytes G q fl c l A1 A2 A3 A4 A5 A6 A7 A8 A9 A10 A11 A12 A13 A14 A15 A16 A17. exact (rp_queries E h k g L0 L Lg f F F' p st st' bytes A1 A2 A3 A4 A5 A6 A7 A8 A9 A10 A11 A12 A13 A14 A15 G q fl c l A16 A17).
Qed.
Print Assumptions C101_replica_queries_show_ledger.

(** ** Examples *)
Lemma ledger_of_onward k L0 L : ledger_of false L0 k = Some L -> onward L0 k L.
Proof.
  assert (forall k0 L1 k, onward L0 k0 L1 -> ledger_of false L1 k = Some L -> onward L0 (k0 ++ k) L) as H; [|apply (H [] L0 k); constructor].
  intros k0 L1 k1. revert k0 L1. induction k1 as [|[F o] k1 IH]; intros k0 L1 H0; simpl; [intros [= <-]; by rewrite app_nil_r|].
  destruct (next false L1 o) as [L2|] eqn:Hn; [|done]. apply next_event in Hn as [Hn|[? _]]; [|done]. intros Hl.
  replace (k0 ++ (F, o) :: k1) with ((k0 ++ [(F, o)]) ++ k1) by (by rewrite <- app_assoc). eapply IH; [|done]. by econstructor.
Qed.
Definition hearsb (f : N) (L Lg : ledger) : bool :=
  bool_decide (lg_base Lg = []) && match lg_root Lg with Some r => bool_decide (lg_parent L !! r = Some f) | None => true end &&
  bool_decide (map_Forall (fun s q => lg_parent L !! s = Some q) (lg_parent Lg)) &&
  forallb (fun a => Bool.eqb (bool_decide (a ∈ lg_writes Lg)) (knownb Lg (d_slot a))) (lg_writes L) && forallb (fun a => bool_decide (a ∈ lg_writes L)) (lg_writes Lg) &&
  bool_decide (lg_conf L = Some (default f (lg_conf Lg))) && bool_decide (lg_fin L = Some (default f (lg_fin Lg))).
Lemma hearsb_spec f L Lg : hearsb f L Lg = true -> hears f L Lg.
Proof.
  unfold hearsb. rewrite !andb_true_iff, !bool_decide_eq_true, !forallb_forall. intros ((((((H1 & H2) & H3) & H4) & H5) & H6) & H7). constructor; [done| |exact H3| |done|done].
  - intros r Hr. rewrite Hr in H2. by apply bool_decide_eq_true in H2.
  - intros a. assert (a ∈ lg_writes L -> (a ∈ lg_writes Lg <-> known Lg (d_slot a))) as Hk.
    { intros Ha%elem_of_list_In. specialize (H4 a Ha). apply Bool.eqb_prop in H4. unfold knownb in H4. change (known Lg (d_slot a)) with (is_Some (lg_parent Lg !! d_slot a)).
      rewrite <- (bool_decide_eq_true (a ∈ lg_writes Lg)), <- (bool_decide_eq_true (is_Some (lg_parent Lg !! d_slot a))). by rewrite H4. }
    split; [intros Ha|intros [Ha Hx]; by apply Hk]. assert (a ∈ lg_writes L) as Hl by (apply (bool_decide_eq_true_1 (a ∈ lg_writes L)), H5; by apply elem_of_list_In). split; [done|]. by apply Hk.
Qed.
Definition rep_h : list (filt * op) := take 13 ledger_hist.
Definition rep_k : list (filt * op) := drop 13 ledger_hist.
Definition rep_g : list (filt * op) :=
  [slt 13 11 Processed; slt 13 11 Confirmed; slt 14 13 Processed; upd (mk_acct 6 0 0 [] 14 6) Processed; slt 14 13 Confirmed].
Definition rep_bytes (h : list (filt * op)) (p : pubkey) : bytes := match create_snapshot ext_sample admit_all (final h) p with Done (ROk b) => b | _ => [] end.
Definition rep_final (p : pubkey) : store := final ((admit_all, OLoad p (rep_bytes rep_h p)) :: rep_g).
Lemma rep_interest pk : of_interest (rep_h ++ rep_k) rep_g admit_all pk.
Proof.
  change (rep_h ++ rep_k) with ledger_hist. assert (forall G, filters_of admit_all rep_g G -> G = admit_all) as Hfl.
  { intros G [->|[o Hin]]; [done|]. unfold rep_g, slt, upd in Hin. rewrite !elem_of_cons, elem_of_nil in Hin. destruct_or?; by simplify_eq. }
  destruct (proj2 ledger_hist_query_hyps pk) as [Hs|Hc]; [left|right].
  - split; [done|]. by intros G a ->%Hfl.
  - split; [done|]. split; [by intros G a ->%Hfl|]. intros g1 G o g2 a G' o' b Hg Hd Hpk Hdead Hin Hd'.
    assert (Forall (fun x => forall y, ~ delivers (snd x) y) g2) as Hall.
    { do 5 (destruct g1 as [|? g1]; [simpl in Hg; injection Hg as <- <- <-; simpl in Hd; try done; (constructor; [intros y Hy; exact Hy|constructor])|simpl in Hg; injection Hg as <- Hg]).
      by destruct g1. }
    rewrite Forall_forall in Hall. by destruct (Hall _ Hin b).
Qed.
Lemma rep_range a : delivered_in ledger_hist a -> acct_in_range a.
Proof.
  intros Ha%plain_delivered; [|apply ledger_hist_query_hyps]. assert (Forall acct_in_range (given ledger_hist)) as Hall.
  { let l := eval vm_compute in (given ledger_hist) in change (given ledger_hist) with l. repeat (apply Forall_cons_2); try apply Forall_nil_2; vm_compute; repeat split; try done. }
  rewrite Forall_forall in Hall. by apply Hall.
Qed.
Lemma rep_hyps : orderly rep_h (ledger_at rep_h) /\ run ext_sample store_empty rep_h = Done (final rep_h) /\ lenN rep_h < 2 ^ 64 /\ lg_fin (ledger_at rep_h) = Some 11 /\
  onward (ledger_at rep_h) rep_k (ledger_at ledger_hist) /\ (forall pk, of_interest (rep_h ++ rep_k) rep_g admit_all pk) /\
  owners_settle (delivered_in (rep_h ++ rep_k)) /\ closed_apart (delivered_in (rep_h ++ rep_k)) /\ loads_in_order rep_h /\ versions_differ (rep_h ++ rep_k) /\
  (forall a, delivered_in (rep_h ++ rep_k) a -> honest ext_sample a /\ acct_in_range a) /\ orderly rep_g (ledger_at rep_g) /\ hears 11 (ledger_at ledger_hist) (ledger_at rep_g).
Proof.
  destruct C90_queries_show_ledger_example as (_ & _ & _ & H1 & H2 & H3 & H4 & H5 & _).
  split; [apply ledger_of_orderly; crunch|]. split; [crunch|]. split; [vm_compute; reflexivity|]. split; [crunch|]. split; [apply ledger_of_onward; crunch|]. split; [exact rep_interest|].
  change (rep_h ++ rep_k) with ledger_hist. split; [done|]. split; [done|]. split.
  { intros h1 F a h2 F' o b Hh Hin. apply (H3 h1 F a (h2 ++ rep_k) F' o b); [|done]. change ledger_hist with (rep_h ++ rep_k). by rewrite Hh, <- app_assoc. }
  split; [done|]. split; [intros a Ha; split; [by apply H5|by apply rep_range]|]. split; [apply ledger_of_orderly; crunch|]. apply hearsb_spec. crunch.
Qed.
(** The snapshot of program 8 holds account 6 (which was owned by program 7 when it was loaded), and the stream from slot 13 on brings its closing. *)
Example C101_replica_reads_show_ledger_example :
  orderly rep_h (ledger_at rep_h) /\ run ext_sample store_empty rep_h = Done (final rep_h) /\ lenN rep_h < 2 ^ 64 /\ lg_fin (ledger_at rep_h) = Some 11 /\
  onward (ledger_at rep_h) rep_k (ledger_at ledger_hist) /\ (forall pk, of_interest (rep_h ++ rep_k) rep_g admit_all pk) /\
  owners_settle (delivered_in (rep_h ++ rep_k)) /\ closed_apart (delivered_in (rep_h ++ rep_k)) /\ loads_in_order rep_h /\ versions_differ (rep_h ++ rep_k) /\
  (forall a, delivered_in (rep_h ++ rep_k) a -> honest ext_sample a /\ acct_in_range a) /\
  create_snapshot ext_sample admit_all (final rep_h) 8 = Done (ROk (rep_bytes rep_h 8)) /\ orderly rep_g (ledger_at rep_g) /\ hears 11 (ledger_at ledger_hist) (ledger_at rep_g) /\
  run ext_sample store_empty ((admit_all, OLoad 8 (rep_bytes rep_h 8)) :: rep_g) = Done (rep_final 8) /\
  get_account (rep_final 8) 6 Finalized = Done (ROk (Some (mk_acct 6 8 5 [] 11 5))) /\ get_account (rep_final 8) 6 Confirmed = Done (ROk None) /\
  get_account (rep_final 8) 5 Finalized = Done (ROk None).
Proof.
  destruct rep_hyps as (H1 & H2 & H3 & H4 & H5 & H6 & H7 & H8 & H9 & H10 & H11 & H12 & H13). do 11 (split; [assumption|]). split; [crunch|]. do 2 (split; [assumption|]). split_and!; crunch.
Qed.
(** The same with the snapshot of program 7. *)
Example C101_replica_queries_show_ledger_example :
  create_snapshot ext_sample admit_all (final rep_h) 7 = Done (ROk (rep_bytes rep_h 7)) /\
  run ext_sample store_empty ((admit_all, OLoad 7 (rep_bytes rep_h 7)) :: rep_g) = Done (rep_final 7) /\
  get_program_accounts ext_sample admit_all (rep_final 7) 7 None Confirmed = Done (ROk [mk_acct 5 7 3 [] 11 3]) /\
  get_program_accounts ext_sample admit_all (rep_final 8) 8 None Finalized = Done (ROk [mk_acct 6 8 5 [] 11 5]) /\
  get_program_accounts ext_sample admit_all (rep_final 8) 8 None Confirmed = Done (ROk []).
Proof. split_and!; crunch. Qed.
(** At processed: a listener that has heard of every later slot. *)
Definition lone_h : list (filt * op) := [ini (mk_acct 5 7 1 [] 8 1); slt 10 9 Processed; upd (mk_acct 5 7 2 [] 10 2) Processed; slt 10 9 Confirmed; slt 10 9 Finalized].
Definition lone_k : list (filt * op) := [slt 11 10 Processed; upd (mk_acct 5 7 3 [] 11 3) Processed].
Example C101_processed_example : onward (ledger_at lone_h) lone_k (ledger_at (lone_h ++ lone_k)) /\ lg_fin (ledger_at lone_h) = Some 10 /\
  hears 10 (ledger_at (lone_h ++ lone_k)) (ledger_at lone_k) /\ hears_all 10 (ledger_at (lone_h ++ lone_k)) (ledger_at lone_k) /\
  create_snapshot ext_sample admit_all (final lone_h) 7 = Done (ROk (rep_bytes lone_h 7)) /\
  get_account (final ((admit_all, OLoad 7 (rep_bytes lone_h 7)) :: lone_k)) 5 Processed = Done (ROk (Some (mk_acct 5 7 3 [] 11 3))) /\
  get_account (final ((admit_all, OLoad 7 (rep_bytes lone_h 7)) :: lone_k)) 5 Finalized = Done (ROk (Some (mk_acct 5 7 2 [] 10 2))).
Proof.
  split; [apply ledger_of_onward; crunch|]. split; [crunch|]. split; [apply hearsb_spec; crunch|]. split; [|split_and!; crunch].
  intros a Ha. let l := eval vm_compute in (lg_writes (ledger_at (lone_h ++ lone_k))) in change (lg_writes (ledger_at (lone_h ++ lone_k))) with l in Ha.
  rewrite !elem_of_cons, elem_of_nil in Ha. destruct Ha as [->|[->|[]]]; [right; apply (branchb_spec fuel _ 10 10 true); crunch|left; exists 10; crunch].
Qed.
