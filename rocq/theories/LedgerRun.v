(** On an orderly stream the store shows the ledger: all steps together. *)
From Verif Require Import Base SMap DataModel FilterModel BincodeModel ByCommitModel ByCommitSpec ByCommitProofs
  StoreModel StoreSpec StoreProofs StoreSlot StoreViews StoreHist LedgerSpec LedgerProofs LedgerInv LedgerSteps LedgerSlots LedgerFin.

Definition regular (m : bool) (h : list (filt * op)) (pk : pubkey) : Prop := if m then closes_once h pk else steady h pk.
Definition received (h : list (filt * op)) (a : acct) : Prop := exists F o, (F, o) ∈ h /\ delivers o a.
Lemma regular_prefix m h1 h2 pk : regular m (h1 ++ h2) pk -> regular m h1 pk.
Proof.
  assert (forall x, x ∈ h1 -> x ∈ h1 ++ h2) as Hin by set_solver. destruct m; simpl.
  - intros [H1 H2]. split; [by eauto|]. intros g1 F o g2 a -> Hd Ha Hc. destruct (H2 g1 F o (g2 ++ h2) a) as [H3 H4]; [by rewrite <- app_assoc|done..|].
    split; [done|]. intros F' o' b Hb. apply (H4 F' o' b). set_solver.
  - intros [H1 H2]. split; [by eauto|]. destruct H2 as [H2|H2]; [left|right]; by eauto.
Qed.
Lemma event_one L o L' a b : event L o L' -> delivers o a -> delivers o b -> a = b.
Proof. destruct 1; simpl; try done; congruence. Qed.
Lemma orderly_one h L F o a b : orderly h L -> (F, o) ∈ h -> delivers o a -> delivers o b -> a = b.
Proof.
  induction 1 as [|h L F' o' L' Ho IH He]; [set_solver|]. rewrite elem_of_app, elem_of_list_singleton. intros [Hin|[= -> ->]]; [by apply IH|]. by eapply event_one.
Qed.
Lemma event_vers L o L' a : event L o L' -> a ∈ lg_base L' \/ a ∈ lg_writes L' -> (a ∈ lg_base L \/ a ∈ lg_writes L) \/ delivers o a.
Proof. destruct 1; simpl; rewrite ?elem_of_app, ?elem_of_list_singleton; naive_solver. Qed.
Lemma orderly_received h L a : orderly h L -> a ∈ lg_base L \/ a ∈ lg_writes L -> received h a.
Proof.
  intros Ho. revert a. induction Ho as [|h L F o L' Ho IH He]; simpl; intros a Ha; [set_solver|].
  destruct (event_vers _ _ _ _ He Ha) as [H|H]; [destruct (IH a H) as (F' & o' & ? & ?); exists F', o'; set_solver|exists F, o; set_solver].
Qed.
(** Every version in the ledger was received, and a call delivers at most one account. *)
Definition received_all (h : list (filt * op)) (L : ledger) : Prop := forall a, a ∈ lg_base L \/ a ∈ lg_writes L -> received h a.
Definition one_each (h : list (filt * op)) : Prop := forall F o a b, (F, o) ∈ h -> delivers o a -> delivers o b -> a = b.
Lemma regular_tame_of m h pk L F o : regular m h pk -> received_all h L -> one_each h -> (F, o) ∈ h -> tame m pk F L.
Proof.
  intros Hr Ho H1each Hin. destruct m; simpl in *.
  - destruct Hr as [H1 H2]. split.
    + intros x [Hx Ex] Hal. destruct (Ho _ Hx) as (F' & o' & Hin' & Hd). by apply (H1 F o F' o' x).
    + intros x [Hx Ex]. destruct (decide (0 < d_lamports x)) as [?|Hcl]; [by left|right]. intros y [Hy Ey].
      destruct (Ho _ Hx) as (F' & o' & Hin' & Hd). apply elem_of_list_split in Hin' as (h1 & h2 & Hh).
      destruct (H2 h1 F' o' h2 x Hh Hd Ex Hcl) as [H3 H4]. destruct (Ho _ Hy) as (F2 & o2 & Hin2 & Hd2). pose proof Hin2 as Hin3.
      rewrite Hh, elem_of_app, elem_of_cons in Hin2. destruct Hin2 as [Hin2|[[= -> ->]|Hin2]]; [right; by eapply H3| |by destruct (H4 F2 o2 y)].
      left. by eapply (H1each F' o').
  - destruct Hr as [H1 H2]. split.
    + intros x [Hx Ex] _. destruct (Ho _ Hx) as (F' & o' & Hin' & Hd). by apply (H1 F o F' o' x).
    + destruct H2 as [H2|H2]; [left|right].
      * intros x [Hx Ex] _. destruct (Ho _ Hx) as (F' & o' & Hin' & Hd). by eapply H2.
      * intros x y [Hx Ex] [Hy Ey] _ _. destruct (Ho _ Hx) as (F' & o' & ? & ?). destruct (Ho _ Hy) as (F2 & o2 & ? & ?). by apply (H2 F' o' x F2 o2 y).
Qed.
Lemma regular_fresh_of m h pk L F o a : regular m (h ++ [(F, o)]) pk -> received_all h L -> delivers o a -> fresh m pk L a.
Proof.
  intros Hr Ho Hd -> Ea x [Hx Ex]. destruct Hr as [_ H2]. destruct (decide (0 < d_lamports x)) as [?|Hcl]; [done|].
  destruct (Ho _ Hx) as (F' & o' & Hin' & Hd'). apply elem_of_list_split in Hin' as (h1 & h2 & Hh).
  destruct (H2 h1 F' o' (h2 ++ [(F, o)]) x) as [_ H4]; [by rewrite Hh, <- app_assoc|done..|]. destruct (H4 F o a); [set_solver|done|done].
Qed.
Lemma regular_tame m h pk L F o : regular m h pk -> orderly h L -> (F, o) ∈ h -> tame m pk F L.
Proof. intros Hr Ho. apply regular_tame_of; [done|intros a; by apply orderly_received|]. intros F' o' a b. by eapply orderly_one. Qed.
Lemma regular_fresh m h pk L F o a : regular m (h ++ [(F, o)]) pk -> orderly h L -> delivers o a -> fresh m pk L a.
Proof. intros Hr Ho. eapply regular_fresh_of; [done|]. intros x. by apply orderly_received. Qed.

Lemma orderly_ok h L : orderly h L -> lg_ok L.
Proof. induction 1; [apply lg_ok_empty|]. by eapply lg_ok_event. Qed.
Lemma event_inv m E pk L F o L' st st' r : lg_ok L -> event L o L' -> st_ok st -> step E F st o = Done (st', r) -> tame m pk F L' -> (forall a, delivers o a -> fresh m pk L a) ->
  slot_inv L (st_slots st) -> pk_inv pk m L st -> slot_inv L' (st_slots st') /\ pk_inv pk m L' st'.
Proof.
  intros Hok He Hst Hs Ht Hfr Hsv Hpk.
  destruct He as [pk' c|p fl c|p|a Hr|si Hr Hlt Hbase|si Hn Hp Hlt|si Hsp Hc|a Hk Hc|si Hsp Hcf|si Hsp Hc Hf|si Hsp Hc Hf]; simpl in Hs.
  - destruct (get_account st pk' c); [|done]. by injection Hs as <- _.
  - destruct (get_program_accounts E F st p fl c); [|done]. by injection Hs as <- _.
  - destruct (create_snapshot E F st p); [|done]. by injection Hs as <- _.
  - unfold init_account in Hs. destruct (update_account F st a Finalized) as [[st2 b]|] eqn:Hu; [|done]. injection Hs as <- _.
    eapply (load_step m pk L st F a); try done. by apply Hfr.
  - destruct (process_slot F st si Processed) as [[st2 out]|] eqn:Hu; [|done]. injection Hs as <- _. by eapply (announce_root_step m pk L st si F).
  - destruct (process_slot F st si Processed) as [[st2 out]|] eqn:Hu; [|done]. injection Hs as <- _. by eapply (announce_slot_step m pk L st si F).
  - destruct (process_slot F st si Processed) as [[st2 out]|] eqn:Hu; [|done]. injection Hs as <- _. by eapply (announce_again_step m pk L st si F).
  - destruct (update_account F st a Processed) as [[st2 b]|] eqn:Hu; [|done]. injection Hs as <- _.
    eapply (write_step m pk L st F a); try done. by apply Hfr.
  - destruct (process_slot F st si Confirmed) as [[st2 out]|] eqn:Hu; [|done]. injection Hs as <- _. by eapply (confirm_step m pk L st si F).
  - destruct (process_slot F st si Confirmed) as [[st2 out]|] eqn:Hu; [|done]. injection Hs as <- _.
    rewrite (confirm_again_step L st si F st2 out); try done. by eexists.
  - destruct (process_slot F st si Finalized) as [[st2 out]|] eqn:Hu; [|done]. injection Hs as <- _. by eapply (finalize_step m pk L st si F).
Qed.

Lemma orderly_inv m E pk h L st : orderly h L -> run E store_empty h = Done st -> regular m h pk -> slot_inv L (st_slots st) /\ pk_inv pk m L st.
Proof.
  intros Ho. revert st. induction Ho as [|h L F o L' Ho IH He]; intros st Hrun Hreg.
  { injection Hrun as <-. split.
    - constructor; simpl; try done; intros *; rewrite ?lookup_empty; done.
    - unfold pk_inv. simpl. rewrite lookup_empty. left. intros a [[Ha|Ha] _]; simpl in Ha; set_solver. }
  assert (orderly (h ++ [(F, o)]) L') as Ho' by (by econstructor).
  rewrite run_app in Hrun. destruct (run E store_empty h) as [st0|] eqn:Hrun0; [|done]. simpl in Hrun.
  destruct (IH st0 eq_refl (regular_prefix _ _ _ _ Hreg)) as [Hsv Hpk]. pose proof (orderly_ok _ _ Ho) as Hok.
  assert (st_ok st0) as Hst by (eapply run_ok; [apply st_ok_empty|done]).
  assert (tame m pk F L') as Ht by (eapply (regular_tame m _ pk L' F o); [done|done|set_solver]).
  destruct (step E F st0 o) as [[st1 r]|] eqn:Hs; [|done]. simpl in Hrun. injection Hrun as <-.
  eapply (event_inv m E pk L F o L'); try done. intros a Ha. by eapply regular_fresh.
Qed.

Lemma branch_dec L t s : lg_ok L -> branch L t s \/ ~ branch L t s.
Proof.
  intros Hok. induction (N.lt_wf_0 t) as [t _ IH]. destruct (opt_case (lg_parent L !! t)) as [[p Hp]|Hn].
  - destruct (decide (t = s)) as [->|Hne]; [left; apply branch_refl; by exists p|]. destruct (IH p) as [H|H]; [by destruct (lo_parent _ Hok _ _ Hp)|left; by eapply branch_up|].
    right. intros [?|(p' & Hp' & Hb)]%branch_inv; [done|]. congruence.
  - right. intros [[p Hp] _]%branch_known. congruence.
Qed.
Lemma counts_dec L c a : lg_ok L -> a ∈ lg_base L \/ a ∈ lg_writes L -> counts L c a \/ ~ counts L c a.
Proof.
  intros Hok [Ha|Ha]; [left; by left|]. assert (a ∉ lg_base L) as Hnb.
  { intros Hb. pose proof (lo_writes _ Hok _ Ha) as Hk. destruct (known_root _ _ Hok Hk) as [r Hr]. pose proof (lo_base _ Hok _ _ Hb Hr). pose proof (lo_min _ Hok _ _ Hk Hr). lia. }
  assert (forall o, (exists t, o = Some t /\ branch L t (d_slot a)) \/ ~ exists t, o = Some t /\ branch L t (d_slot a)) as Hd.
  { intros [t|]; [|right; intros (? & ? & _); done]. destruct (branch_dec L t (d_slot a) Hok) as [H|H]; [left; eauto|right]. intros (? & [= <-] & ?). done. }
  destruct c; [left; by right|destruct (Hd (lg_conf L)) as [H|H]|destruct (Hd (lg_fin L)) as [H|H]]; try (left; right; done); right; intros [?|[_ ?]]; done.
Qed.
Lemma inv_version m pk L st c : lg_ok L -> pk_inv pk m L st ->
  in_ledger L pk c (version_at st pk c) \/ (version_at st pk c = None /\ m = true /\ exists x, in_ledger L pk c (Some x) /\ ~ alive x).
Proof.
  intros Hok Hpk. unfold pk_inv in Hpk.
  destruct (st_index st !! pk) as [i|] eqn:Hi.
  - destruct Hpk as (b & Hb & [I1 I2 I3 I4 I5 I6]). left. rewrite (version_at_entry st pk i b c Hi Hb). destruct c; done.
  - assert (version_at st pk c = None) as Hv by (unfold version_at; by rewrite Hi). rewrite Hv.
    assert (forall a, counts L c a /\ d_pubkey a = pk -> vers pk L a) as Hcv by (intros a [[?|[? _]] ?]; split; auto).
    destruct Hpk as [Hn|(Hm & x & [Hx Ex] & Hd & Hall & Hor)].
    { left. intros a Ha. by destruct (Hn a (Hcv a Ha)). }
    assert (counts L c x \/ forall a, counts L c a -> d_pubkey a = pk -> False) as [Hc|Hc].
    { destruct Hor as [Hone|Hfin].
      - destruct (counts_dec L c x Hok Hx) as [?|Hn]; [by left|right]. intros a Ha Ea. apply Hn. by rewrite <- (Hone a (Hcv a (conj Ha Ea))).
      - left. destruct c; [|destruct Hfin as [?|(? & t & Ht & Hb)]; [by left|right; split; [done|]]|done].
        + destruct Hfin as [?|[? _]]; [by left|by right].
        + eapply committed_branch; [by apply (lo_fin _ Hok)|done]. }
    + right. split; [done|]. split; [done|]. exists x. split; [|done]. split; [done|]. intros y Hy. destruct (Hall y (Hcv y Hy)) as [->|Hn]; [apply version_le_refl|].
      unfold version_le in *. lia.
    + left. intros a [Ha Ea]. by destruct (Hc a Ha Ea).
Qed.
Lemma pk_version m E pk h L st c : orderly h L -> run E store_empty h = Done st -> regular m h pk ->
  in_ledger L pk c (version_at st pk c) \/ (version_at st pk c = None /\ m = true /\ exists x, in_ledger L pk c (Some x) /\ ~ alive x).
Proof. intros Ho Hrun Hreg. apply inv_version; [by eapply orderly_ok|]. by apply (orderly_inv m E pk h L st Ho Hrun Hreg). Qed.
