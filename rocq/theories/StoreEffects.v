(** Redelivery, reports, forks, closing and late deliveries in the account store. *)
From Verif Require Import Base SMap DataModel FilterModel FilterSpec FilterProofs BincodeModel
  ByCommitModel ByCommitSpec ByCommitProofs StoreModel StoreSpec StoreProofs StoreSlot StoreViews StoreHist.

(** ** Redelivery *)
Lemma update_unchanged F st a c i b sl' c' : st_index st !! d_pubkey a = Some i -> st_accounts st !! i = Some b ->
  add_to_status (st_slots st) (d_slot a) i c = (sl', c') -> bc_update b a c' = (b, false) -> sl' = st_slots st ->
  update_account F st a c = Done (st, false).
Proof.
  intros Hi Hb Hadd Hu ->. unfold update_account, contains_key, maybe_update_status. rewrite Hi.
  rewrite bool_decide_true by eauto. simpl. rewrite andb_false_r, Hadd. rewrite Hb. simpl. rewrite Hu.
  rewrite list_insert_id by done. by destruct st.
Qed.
Lemma update_refused F st a c : st_index st !! d_pubkey a = None -> fl_sat F a = false ->
  update_account F st a c = Done (st, false).
Proof.
  intros Hi Hs. unfold update_account, maybe_update_status. destruct (_ && _ && _); [done|].
  rewrite Hi, Hs. by destruct st.
Qed.
Lemma redeliver F F' st a c st1 r : st_ok st -> update_account F st a c = Done (st1, r) ->
  (tracked st1 (d_pubkey a) \/ fl_sat F' a = false) -> (tracked st (d_pubkey a) \/ effective st a c = c) ->
  update_account F' st1 a c = Done (st1, false).
Proof.
  intros Hok H Htr Heff. apply update_account_inv in H; [|done].
  destruct H as [Hi Hs|sl' cx Hi Hs Hadd|i b sl' c' b' upd ow' Hi Hb Hadd Hu Hud Hud0|i b sl' c' b' prev ow' Hi Hb Hadd Hu Hprev Hud].
  - destruct Htr as [[i Htr]|Htr]; [congruence|]. by apply update_refused.
  - destruct Heff as [[i Htr2]|Heff]; [congruence|].
    pose proof (effective_add _ _ _ _ _ _ Hadd) as Hc. rewrite Heff in Hc. subst cx.
    pose proof (add_to_status_again _ _ _ _ _ _ Hadd) as Hagain.
    eapply update_unchanged; simpl.
    + apply lookup_insert.
    + rewrite lookup_app_r by lia. by rewrite Nat.sub_diag.
    + exact Hagain.
    + assert (match c with Finalized => Finalized | _ => match st_slots st !! d_slot a with Some ss => ss_commit ss | None => c end end = c) as ->.
      { unfold effective in Heff. destruct c; done. }
      rewrite bc_new_update. apply bc_update_again, bc_ok_empty.
    + done.
  - pose proof (effective_add _ _ _ _ _ _ Hadd) as Hc.
    pose proof (add_to_status_again _ _ _ _ _ _ Hadd) as Hagain.
    assert (i < length (st_accounts st))%nat by (by eapply so_bound).
    eapply update_unchanged; simpl.
    + exact Hi.
    + by rewrite list_lookup_insert.
    + exact Hagain.
    + replace (match c with Finalized => Finalized | _ => match st_slots st !! d_slot a with Some ss => ss_commit ss | None => c end end) with c'.
      assert (b' = (bc_update b a c').1) as -> by (by rewrite Hu). apply bc_update_again. by eapply so_bc.
    + done.
  - destruct Htr as [[j Htr]|Htr].
    + simpl in Htr. rewrite lookup_delete in Htr. done.
    + apply update_refused; [|done]. simpl. apply lookup_delete.
Qed.

(** ** Slot notifications again *)
Lemma phase_done sl si c sl' wa : slot_phase sl si c = Some (sl', wa) ->
  match sl' !! si_slot si with Some ss => ss_commit ss = c | None => c = Finalized end.
Proof.
  intros Hph. destruct (slot_phase_spec _ _ _ _ _ Hph) as (_ & _ & _ & Hst & _).
  destruct (Hst (si_slot si)) as [(_ & ss & _ & ->)|(Hn & Hcase)]; [by right|done|].
  destruct (sl !! si_slot si) as [ss|] eqn:Hs.
  - destruct Hcase as [->|[? _]]; [|done]. destruct (decide (ss_commit ss = c)); [done|]. exfalso. apply Hn. by eapply chain_start.
  - destruct Hcase as [Heq|(_ & _ & ->)]; [|done]. rewrite Heq. destruct c; [| |done];
     (unfold slot_phase in Hph; cbn [slot_walk] in Hph; rewrite Hs in Hph; injection Hph as <- <-;
      rewrite lookup_insert in Heq; done).
Qed.
Lemma phase_again sl si c sl' wa : slot_phase sl si c = Some (sl', wa) -> slot_phase sl' si c = Some (sl', ∅).
Proof.
  intros Hph. pose proof (phase_done _ _ _ _ _ Hph) as Hd.
  destruct (slot_phase_spec _ _ _ _ _ Hph) as (_ & _ & _ & _ & Hgone).
  unfold slot_phase. cbn [slot_walk].
  assert (c = Finalized -> prune_slots (si_slot si) sl' = sl') as Hpr.
  { intros Hc. unfold prune_slots. apply map_filter_id. intros t ss Ht. simpl.
    destruct (N.lt_ge_cases t (si_slot si)) as [Hlt|]; [|done]. rewrite (Hgone Hc t Hlt) in Ht. done. }
  destruct (sl' !! si_slot si) as [ss|] eqn:Hs.
  - rewrite bool_decide_true by done. destruct c; [done..|]. by rewrite Hpr.
  - subst c. by rewrite Hpr.
Qed.
Lemma slot_again F F' st si c st1 out : st_ok st -> process_slot F st si c = Done (st1, out) ->
  process_slot F' st1 si c = Done (st1, []).
Proof.
  intros Hok H. destruct (process_slot_spec F st si c Hok) as (st' & sl & wa & H1 & Hph & Hsl & Hse).
  rewrite H1 in H. injection H as <- <-. unfold process_slot. rewrite Hsl, (phase_again _ _ _ _ _ Hph). simpl.
  rewrite map_to_list_empty. simpl. destruct st'. simpl in *. by subst.
Qed.

(** The walk ends by itself, whatever bound on its steps it is given. *)
Lemma slot_walk_more fuel sl wa s par ip c r k : slot_walk fuel sl wa s par ip c = Some r ->
  slot_walk (fuel + k) sl wa s par ip c = Some r.
Proof.
  revert sl wa s par. induction fuel as [|fuel IH]; intros sl wa s par; [done|]. cbn [slot_walk Nat.add].
  destruct (sl !! s) as [ss|]; [|done]. case_bool_decide; [done|].
  destruct c; [done| |]; (destruct (match par with Some _ => par | None => ss_parent ss end); [apply IH|done]).
Qed.

(** ** Reports *)
Lemma reports_in F st c l a : a ∈ reports F st c l <->
  exists i s b, (i, s) ∈ l /\ st_accounts st !! i = Some b /\ (prom_after F b s c).2 = Some a.
Proof.
  unfold reports. rewrite elem_of_list_omap. split.
  - intros ([i s] & Hin & H). destruct (st_accounts st !! i) as [b|] eqn:Hb; [|done]. exists i, s, b. done.
  - intros (i & s & b & Hin & Hb & H). exists (i, s). split; [done|]. by rewrite Hb.
Qed.
Lemma report_prom F b s c a : (prom_after F b s c).2 = Some a -> exists prev, (bc_promote b s c).2 = Some (a, prev).
Proof.
  unfold prom_after. destruct (bc_promote b s c) as [b2 [[x [prev|]]|]]; simpl; [destruct (drops _ _ _ _)| |];
    simpl; intros H; simplify_eq; eauto.
Qed.
Lemma report_entry F st c i s b a : st_ok st -> st_accounts st !! i = Some b -> (prom_after F b s c).2 = Some a ->
  st_index st !! d_pubkey a = Some i /\ d_slot a = s /\ c <> Processed.
Proof.
  intros Hok Hb Hr. apply report_prom in Hr as [prev Hr]. apply promote_report_in in Hr as (Hg & _ & Hc).
  split; [|split; [|done]].
  - destruct (decide (map_Exists (fun _ j => j = i) (st_index st))) as [(pk & ? & Hpk & ->)|Hno].
    + destruct (so_pk _ Hok _ _ _ Hpk Hb) as [[Hall _] _]. by rewrite (Hall _ _ Hg).
    + exfalso. assert (b = bc_empty) as ->.
      { eapply so_orphan; [exact Hok|exact Hb|]. intros pk Hpk. apply Hno. exists pk, i. done. }
      done.
  - eapply ok_key; [|exact Hg]. by eapply so_bc.
Qed.
Lemma reports_nodup F st c (l : list (nat * N)) : st_ok st -> NoDup l.*1 -> NoDup (map d_pubkey (reports F st c l)).
Proof.
  intros Hok. induction l as [|[i s] l IH]; intros Hnd; simpl; [constructor|].
  apply NoDup_cons in Hnd as [Hni Hnd]. specialize (IH Hnd). unfold reports in *. simpl.
  destruct (st_accounts st !! i) as [b|] eqn:Hb; simpl; [|done].
  destruct ((prom_after F b s c).2) as [a|] eqn:Hr; simpl; [|done].
  constructor; [|done]. intros (x & Hx & Hin)%elem_of_list_fmap.
  apply reports_in in Hin as (j & t & bj & Hj & Hbj & Hrj).
  destruct (report_entry _ _ _ _ _ _ _ Hok Hb Hr) as [H1 _].
  destruct (report_entry _ _ _ _ _ _ _ Hok Hbj Hrj) as [H2 _].
  rewrite Hx, H2 in H1. injection H1 as ->. apply Hni. apply elem_of_list_fmap. by exists (i, t).
Qed.
Lemma slot_reports F st si c st' out : st_ok st -> process_slot F st si c = Done (st', out) ->
  NoDup (map d_pubkey out) /\
  (forall a, a ∈ out -> tracked st (d_pubkey a) /\
     (version_at st' (d_pubkey a) c = Some a \/
       (~ tracked st' (d_pubkey a) /\ c = Finalized /\ (~ alive a \/ fl_sat F a = false))) /\
     forall x, version_at st (d_pubkey a) c = Some x -> d_slot x < d_slot a) /\
  (forall pk, version_at st' pk c <> version_at st pk c ->
     exists a, a ∈ out /\ d_pubkey a = pk /\ (version_at st' pk c = Some a \/ ~ tracked st' pk)).
Proof.
  intros Hok H. destruct (process_slot_spec F st si c Hok) as (st1 & sl & wa & H1 & Hph & Hsl & Hse).
  rewrite H1 in H. injection H as <- <-. split_and!.
  - apply reports_nodup; [done|]. apply NoDup_fst_map_to_list.
  - intros a Hin. apply reports_in in Hin as (i & s & b & Hw & Hb & Hr). apply elem_of_map_to_list in Hw.
    destruct (report_entry _ _ _ _ _ _ _ Hok Hb Hr) as (Hi & Hs & Hc). split; [by exists i|].
    destruct (prom_after F b s c) as [[b' del] rep] eqn:Hp. simpl in Hr. subst rep.
    pose proof (slot_version F st si c wa st1 _ i b Hok Hse Hi Hb) as Hv. rewrite Hw, Hp in Hv.
    destruct Hv as [Hv1 Hv2]. assert (bc_ok b) as Hbc by (by eapply so_bc).
    destruct (bc_promote b s c) as [b2 r2] eqn:Hpr. pose proof (promotion_report b s c b2 r2 Hbc Hpr) as (_ & Hrep & _).
    destruct del.
    + destruct (prom_after_drop _ _ _ _ _ _ Hp) as (_ & a' & prev & Hr & [= <-] & Hd).
      rewrite Hpr in Hr. simpl in Hr. subst r2. apply drops_true in Hd as (-> & _ & Hd). split.
      * right. split; [intros [? ?]; congruence|]. split; [done|]. destruct Hd as [Hd|Hd]; [left|by right].
        intros ?%is_deleted_alive. congruence.
      * intros x Hx. rewrite (version_at_entry _ _ _ _ _ Hi Hb) in Hx. destruct Hrep as (_ & Hprev & _ & Hlt).
        rewrite Hprev in Hx. injection Hx as ->. rewrite Hs. by apply Hlt.
    + destruct (prom_after_keep _ _ _ _ _ _ Hp) as [-> Hr]. rewrite Hpr in *. simpl in Hr.
      destruct r2 as [[a' prev]|]; [|done]. simpl in Hr. injection Hr as <-.
      destruct Hrep as (Hg & Hprev & _ & Hlt). split.
      * left. by rewrite (version_at_entry _ _ _ _ _ Hv1 Hv2).
      * intros x Hx. rewrite (version_at_entry _ _ _ _ _ Hi Hb) in Hx. rewrite Hprev in Hx. rewrite Hs. by apply Hlt.
  - intros pk Hne. destruct (st_index st !! pk) as [i|] eqn:Hi.
    2:{ exfalso. apply Hne. unfold version_at. rewrite Hi, (se_none _ _ _ _ _ _ Hse _ Hi). done. }
    destruct (so_entry _ _ _ Hok Hi) as (b & Hb & Hbc & Hall & _).
    pose proof (slot_version F st si c wa st1 pk i b Hok Hse Hi Hb) as Hv. destruct (wa !! i) as [s|] eqn:Hw; cycle 1.
    { destruct Hv as [Hv1 Hv2]. exfalso. apply Hne. by rewrite (version_at_entry _ _ _ _ _ Hi Hb), (version_at_entry _ _ _ _ _ Hv1 Hv2). }
    destruct (prom_after F b s c) as [[b' del] rep] eqn:Hp. destruct Hv as [Hv1 Hv2].
    destruct (bc_promote b s c) as [b2 r2] eqn:Hpr. pose proof (promotion_report b s c b2 r2 Hbc Hpr) as (Hproc & Hrep & _).
    destruct del.
    + destruct (prom_after_drop _ _ _ _ _ _ Hp) as (_ & a' & prev & Hr & -> & Hd). exists a'. split_and!.
      * apply reports_in. exists i, s, b. split; [by apply elem_of_map_to_list|]. split; [done|]. by rewrite Hp.
      * apply promote_report_in in Hr as (Hg & _). destruct Hall as [Hall _]. by eapply Hall.
      * right. intros [? ?]. congruence.
    + destruct (prom_after_keep _ _ _ _ _ _ Hp) as [-> Hr]. rewrite Hpr in *. simpl in Hr, Hv2.
      rewrite (version_at_entry _ _ _ _ _ Hi Hb), (version_at_entry _ _ _ _ _ Hv1 Hv2) in Hne.
      destruct r2 as [[a' prev]|].
      * simpl in Hr. subst rep. destruct Hrep as (Hg & _). exists a'. split_and!.
        -- apply reports_in. exists i, s, b. split; [by apply elem_of_map_to_list|]. split; [done|]. by rewrite Hp.
        -- eapply entry_pk; [apply (se_ok _ _ _ _ _ _ Hse)|exact Hv1|exact Hv2|exact Hg].
        -- left. by rewrite (version_at_entry _ _ _ _ _ Hv1 Hv2).
      * exfalso. by apply Hne.
Qed.

(** ** Only the announced chain is committed *)
Lemma slot_changes F st si c st' out pk k a : st_ok st -> process_slot F st si c = Done (st', out) ->
  version_at st' pk k = Some a -> version_at st pk k <> Some a ->
  on_chain (st_slots st) si c (d_slot a) /\ wrote st (d_slot a) pk /\ k <> Processed /\ at_least k c.
Proof.
  intros Hok H Ha Hne.
  assert (tracked st pk) as Ht.
  { destruct (st_index st !! pk) eqn:E; [by exists n|]. exfalso.
    assert (~ tracked st' pk) as Hn by (eapply slot_untracked; [exact Hok|exact H|intros [? ?]; congruence]).
    rewrite (version_at_untracked _ _ _ Hn) in Ha. done. }
  destruct (slot_view F st si c st' out pk Hok H Ht) as (i & b & wa & sl & Hi & Hb & Hbc & Hph & Hsl & Hv & Hcase).
  destruct Hcase as [(_ & _ & Hv')|[(s & Hs & Htr & Hv')|(s & x & prev & Hs & Hn & _)]].
  - exfalso. apply Hne. by rewrite Hv, <- Hv'.
  - rewrite Hv' in Ha. rewrite Hv in Hne.
    destruct (slot_phase_spec _ _ _ _ _ Hph) as (Hwa & _). destruct (Hwa _ _ Hs) as (Hch & ss & Hss & Hin).
    assert (take_over b s (bc_get b k) = Some a -> d_slot a = s) as Hto.
    { unfold take_over. destruct (sm_get s (bc_proc b)) as [p|] eqn:Hp; [|done].
      destruct (promoted_cases (bc_get b k) p) as (x & -> & Hor & _). intros [= Hxa]. subst x.
      destruct Hor as [Hxp|?]; [subst a; by eapply ok_key|done]. }
    assert (d_slot a = s /\ k <> Processed /\ at_least k c) as (-> & ? & ?).
    { destruct k.
      - exfalso. apply Hne. rewrite <- Ha. destruct (bc_promote b s c) as [b2 r2] eqn:Hpr.
        destruct (promotion_report b s c b2 r2 Hbc Hpr) as [<- _]. done.
      - simpl in *. rewrite bc_promote_conf in Ha. destruct c; [done| |]; (split; [auto|]; split; [done|unfold at_least; simpl; lia]).
      - simpl in *. rewrite bc_promote_fin in Ha. destruct c; [done|done|]. split; [auto|]. split; [done|unfold at_least; simpl; lia]. }
    split_and!; try done. by exists i, ss.
  - exfalso. rewrite (version_at_untracked _ _ _ Hn) in Ha. done.
Qed.

(** ** Closing *)
Lemma untracked_gone st E F p fl c pk l a : st_ok st -> ~ tracked st pk -> 
  get_account st pk c = Done (ROk None) /\
  (get_program_accounts E F st p fl c = Done (ROk l) -> a ∈ l -> d_pubkey a <> pk).
Proof.
  intros Hok Hn. split.
  - rewrite get_account_total by done. by rewrite version_at_untracked.
  - intros Hl Hin <-. destruct (gpa_sound _ _ _ _ _ _ _ _ Hok Hl Hin) as (x & Hx & _).
    rewrite version_at_untracked in Hx; done.
Qed.
Lemma slot_close F st si st' out a prev : st_ok st -> process_slot F st si Finalized = Done (st', out) ->
  a ∈ out -> version_at st (d_pubkey a) Finalized = Some prev -> d_owner prev <> d_owner a ->
  (~ alive a \/ fl_sat F a = false) -> ~ tracked st' (d_pubkey a).
Proof.
  intros Hok H Hin Hprev Ho Hd. destruct (process_slot_spec F st si Finalized Hok) as (st1 & sl & wa & H1 & Hph & Hsl & Hse).
  rewrite H1 in H. injection H as <- <-. apply reports_in in Hin as (i & s & b & Hw & Hb & Hr).
  apply elem_of_map_to_list in Hw. destruct (report_entry _ _ _ _ _ _ _ Hok Hb Hr) as (Hi & Hs & Hc).
  pose proof (slot_version F st si Finalized wa st1 _ i b Hok Hse Hi Hb) as Hv. rewrite Hw in Hv.
  destruct (report_prom _ _ _ _ _ Hr) as [prev' Hp]. pose proof (promote_report_in _ _ _ _ _ Hp) as (_ & Hg & _).
  rewrite (version_at_entry _ _ _ _ _ Hi Hb) in Hprev. rewrite Hprev in Hg. subst prev'.
  assert (drops F Finalized prev a = true) as Hdr.
  { apply drops_true. split; [done|]. split; [done|]. destruct Hd as [Hd|Hd]; [left|by right].
    destruct (is_deleted a) eqn:E; [done|]. by apply is_deleted_alive in E. }
  unfold prom_after in Hv. destruct (bc_promote b s Finalized) as [b2 r2]. simpl in Hp. subst r2. rewrite Hdr in Hv.
  destruct Hv as [Hv _]. intros [? ?]. congruence.
Qed.
Lemma update_close F st a st' prev r c : st_ok st -> update_account F st a c = Done (st', r) ->
  effective st a c = Finalized -> version_at st (d_pubkey a) Finalized = Some prev -> d_slot prev < d_slot a ->
  d_owner prev <> d_owner a -> (~ alive a \/ fl_sat F a = false) -> ~ tracked st' (d_pubkey a).
Proof.
  intros Hok H He Hprev Hlt Ho Hd. apply update_account_inv in H; [|done].
  apply version_at_inv in Hprev as (i0 & b0 & Hi0 & Hb0 & Hg0).
  destruct H as [Hi Hs|sl' cx Hi Hs Hadd|i b sl' c' b' upd ow' Hi Hb Hadd Hu Hud Hud0|i b sl' c' b' prev' ow' Hi Hb Hadd Hu Hprev Hud];
    [congruence|congruence| |].
  - exfalso. rewrite Hi in Hi0. injection Hi0 as <-. rewrite Hb in Hb0. injection Hb0 as <-.
    pose proof (effective_add _ _ _ _ _ _ Hadd) as ->. rewrite He in *.
    assert (upd = true) as ->.
    { rewrite bc_update_unfold in Hu. injection Hu as _ <-. apply orb_true_iff. right. apply newer_spec.
      intros x Hx. simpl in Hg0. rewrite Hg0 in Hx. injection Hx as <-. unfold version_le. lia. }
    specialize (Hud prev eq_refl Hg0).
    destruct (update_owner_delete_spec F (st_owners st) prev a i Finalized) as (ow2 & del2 & H2 & Hdel & _).
    { exact (entry_pk _ _ _ _ _ _ Hok Hi Hb Hg0). }
    rewrite Hud in H2. injection H2 as <- <-. assert (false = true); [|done]. apply Hdel. split_and!; [done|done|].
    destruct Hd as [Hd|Hd]; [left|by right]. destruct (is_deleted a) eqn:E; [done|]. by apply is_deleted_alive in E.
  - intros [? Hn]. simpl in Hn. by rewrite lookup_delete in Hn.
Qed.

(** ** Late deliveries *)
Lemma bc_get_stale b a c y k : bc_ok b -> bc_fin b = Some y -> d_slot a < d_slot y ->
  bc_get (bc_update b a c).1 k = bc_get b k.
Proof.
  intros Hb Hy Hlt. destruct (ok_fin _ Hb _ Hy) as (x & Hx & Hyx). destruct (ok_conf _ Hb _ Hx) as (kl & pl & Hl & Hxl).
  assert (forall o z, o = Some z -> d_slot a < d_slot z -> newer o a = false) as Hn.
  { intros o z -> Hz. unfold newer. rewrite orb_false_iff, andb_false_iff, !N.ltb_ge. split; [lia|]. left. apply N.eqb_neq. lia. }
  rewrite bc_update_unfold. destruct k; unfold bc_get; simpl.
  - assert (last (upd_proc b a) = last (bc_proc b)) as ->; [|unfold upd_conf; destruct c; by rewrite ?(Hn _ x Hx) by lia].
    pose proof Hl as Hl2. apply sm_last_spec in Hl as [Hg Hmax]; [|by apply ok_sorted].
    rewrite Hl2. apply sm_last_spec; [by apply upd_proc_sorted|]. split.
    + rewrite upd_proc_get_ne; [done|]. lia.
    + intros k' v Hv. destruct (decide (k' = d_slot a)) as [->|Hne]; [lia|]. rewrite upd_proc_get_ne in Hv by done. by eapply Hmax.
  - unfold upd_conf. destruct c; by rewrite ?(Hn _ x Hx) by lia.
  - unfold upd_fin. destruct c; by rewrite ?(Hn _ y Hy) by lia.
Qed.
Lemma gpa_entry_ext E b b' c p fl : bc_get b' c = bc_get b c -> gpa_entry E b' c p fl = gpa_entry E b c p fl.
Proof. intros H. unfold gpa_entry, bc_get_filtered. by rewrite H. Qed.
Lemma stale_update F st a c st' r y : st_ok st -> update_account F st a c = Done (st', r) ->
  version_at st (d_pubkey a) Finalized = Some y -> d_slot a < d_slot y ->
  (d_owner a = d_owner y \/ effective st a c <> Finalized) ->
  (forall pk k, version_at st' pk k = version_at st pk k) /\
  (forall p i, i ∈ own (st_owners st) p -> i ∈ own (st_owners st') p) /\
  (forall i b, st_accounts st !! i = Some b -> exists b', st_accounts st' !! i = Some b' /\ forall k, bc_get b' k = bc_get b k) /\
  (d_owner a = d_owner y -> effective st a c = Finalized -> st_owners st' = st_owners st).
Proof.
  intros Hok H Hy Hlt Ho. pose proof (update_other F st a c st' r) as Hoth. 
  apply version_at_inv in Hy as (i0 & b0 & Hi0 & Hb0 & Hg0).
  pose proof H as Hraw. apply update_account_inv in H; [|done].
  destruct H as [Hi Hs|sl' cx Hi Hs Hadd|i b sl' c' b' upd ow' Hi Hb Hadd Hu Hud Hud0|i b sl' c' b' prev' ow' Hi Hb Hadd Hu Hprev Hud];
    [congruence|congruence| |].
  - rewrite Hi in Hi0. injection Hi0 as <-. rewrite Hb in Hb0. injection Hb0 as <-.
    pose proof (effective_add _ _ _ _ _ _ Hadd) as Hc'. assert (bc_ok b) as Hbc by (by eapply so_bc).
    assert (forall k, bc_get b' k = bc_get b k) as Hget.
    { intros k. assert (b' = (bc_update b a c').1) as -> by (by rewrite Hu). by eapply bc_get_stale. }
    assert (i < length (st_accounts st))%nat by (by eapply so_bound).
    split_and!.
    + intros pk k. destruct (decide (pk = d_pubkey a)) as [->|]; [|by apply Hoth].
      rewrite (version_at_entry _ _ i b' k); simpl; [|done|by rewrite list_lookup_insert].
      by rewrite (version_at_entry _ _ _ _ _ Hi Hb), Hget.
    + intros p j Hj. simpl. destruct upd; [|assert (ow' = st_owners st) as -> by (apply Hud0; by left); done].
      destruct (bc_get b c') as [prev|] eqn:Hprev; [|assert (ow' = st_owners st) as -> by (apply Hud0; by right); done].
      specialize (Hud prev eq_refl eq_refl).
      destruct (update_owner_delete_spec F (st_owners st) prev a i c') as (ow2 & del2 & H2 & _ & H3 & H4).
      { exact (entry_pk _ _ _ _ _ _ Hok Hi Hb Hprev). }
      rewrite Hud in H2. injection H2 as <- <-. destruct (decide (j = i)) as [->|Hne]; [|by apply H3].
      apply H4. left. split; [done|]. intros (Hf & Hoo & _). rewrite Hc' in *. destruct Ho as [Ho|Ho]; [|done].
      rewrite Hf in Hprev. rewrite Hprev in Hg0. injection Hg0 as ->. done.
    + intros j bj Hj. simpl. destruct (decide (j = i)) as [->|Hne].
      * exists b'. rewrite list_lookup_insert by done. split; [done|]. rewrite Hb in Hj. by injection Hj as <-.
      * exists bj. by rewrite list_lookup_insert_ne.
    + intros Heq Hf. simpl. destruct upd; [|by apply Hud0; left].
      rewrite Hc', Hf in *. specialize (Hud _ eq_refl Hg0). unfold update_owner_delete in Hud.
      rewrite bool_decide_true in Hud by (exact (entry_pk _ _ _ _ _ _ Hok Hi Hb Hg0)).
      rewrite bool_decide_true in Hud by done. by injection Hud as <-.
  - exfalso. rewrite Hi in Hi0. injection Hi0 as <-. rewrite Hb in Hb0. injection Hb0 as <-.
    pose proof (effective_add _ _ _ _ _ _ Hadd) as Hc'.
    destruct (update_owner_delete_spec F (st_owners st) prev' a i c') as (ow2 & del2 & H2 & Hdel & _).
    { exact (entry_pk _ _ _ _ _ _ Hok Hi Hb Hprev). }
    rewrite Hud in H2. injection H2 as <- <-. destruct (proj1 Hdel eq_refl) as (Hf & Hoo & _).
    rewrite Hc' in *. destruct Ho as [Ho|Ho]; [|done]. rewrite Hf in Hprev. congruence.
Qed.

(** ** Deliveries are served *)
Lemma upd_reaches b a c k : bc_ok b -> at_least k c -> exists x, bc_get (bc_update b a c).1 k = Some x /\
  (k <> Processed -> version_le a x) /\ d_slot a <= d_slot x.
Proof.
  intros Hb Hk.
  assert (forall o, exists x, (if newer o a then Some a else o) = Some x /\ version_le a x) as Hn.
  { intros o. destruct (newer o a) eqn:E; [exists a; auto using version_le_refl|].
    apply newer_false in E as (x & -> & ?). eauto. }
  assert (forall x, version_le a x -> d_slot a <= d_slot x) as Hs by (unfold version_le; intros; lia).
  rewrite bc_update_unfold. unfold at_least in Hk. destruct k; unfold bc_get; simpl.
  - destruct (upd_proc_last' b a Hb) as (kk & p & Hl & Hle). rewrite Hl.
    exists p. split; [done|]. split; [done|]. apply sm_last_spec in Hl as [Hg _]; [|by apply upd_proc_sorted].
    rewrite (upd_proc_key b a kk p Hb Hg). done.
  - destruct c; simpl in Hk; [lia| |]; unfold upd_conf; destruct (Hn (bc_conf b)) as (x & -> & ?); eauto.
  - destruct c; simpl in Hk; [lia|lia|]; unfold upd_fin; destruct (Hn (bc_fin b)) as (x & -> & ?); eauto.
Qed.
Lemma update_reads F st a c st' r k : st_ok st -> update_account F st a c = Done (st', r) -> tracked st' (d_pubkey a) ->
  (tracked st (d_pubkey a) -> at_least k (effective st a c)) -> (~ tracked st (d_pubkey a) -> at_least k c) ->
  exists x, version_at st' (d_pubkey a) k = Some x /\ (k <> Processed -> version_le a x) /\ d_slot a <= d_slot x.
Proof.
  intros Hok H Ht' H1 H2. destruct (update_self F st a c st' r Hok H) as (Ha & _ & Hc).
  destruct (st_index st !! d_pubkey a) as [i|] eqn:Hi.
  - assert (tracked st (d_pubkey a)) as Ht by (by exists i). destruct (Ha Ht Ht') as (b & Hbc & _ & _ & Hv & _).
    rewrite Hv. apply upd_reaches; auto.
  - assert (~ tracked st (d_pubkey a)) as Ht by (intros [? ?]; congruence). destruct (Hc Ht) as (_ & Hs & Hr).
    destruct (fl_sat F a) eqn:E; [|rewrite (Hr eq_refl) in Ht'; done].
    rewrite (Hs eq_refl), bc_new_update. apply upd_reaches; [apply bc_ok_empty|auto].
Qed.

(** ** Writes persist while the account is tracked *)
Definition entry_has (P : bycom -> Prop) (st : store) (pk : pubkey) : Prop :=
  forall i b, st_index st !! pk = Some i -> st_accounts st !! i = Some b -> P b.
Lemma has_write_upd_store s w F st a c st' r pk : st_ok st -> update_account F st a c = Done (st', r) ->
  tracked st pk -> entry_has (has_write s w) st pk -> entry_has (has_write s w) st' pk.
Proof.
  intros Hok H Ht HP i b Hi Hb. apply update_account_inv in H; [|done].
  destruct H as [Hi0 Hs|sl' cx Hi0 Hs Hadd|j bj sl' c' b' upd ow' Hj Hbj Hadd Hu Hud Hud0|j bj sl' c' b' prev ow' Hj Hbj Hadd Hu Hprev Hud];
    simpl in *.
  - by eapply HP.
  - destruct (decide (pk = d_pubkey a)) as [->|Hne]; [destruct Ht; congruence|].
    rewrite lookup_insert_ne in Hi by done. pose proof (so_bound _ Hok _ _ Hi).
    rewrite lookup_app_l in Hb by done. by eapply HP.
  - assert (j < length (st_accounts st))%nat by (by eapply so_bound).
    destruct (decide (i = j)) as [->|Hne].
    + rewrite list_lookup_insert in Hb by done. injection Hb as <-.
      assert (b' = (bc_update bj a c').1) as -> by (by rewrite Hu).
      apply has_write_upd; [by eapply so_bc|]. by eapply HP.
    + rewrite list_lookup_insert_ne in Hb by done. by eapply HP.
  - destruct (decide (pk = d_pubkey a)) as [->|Hne]; [by rewrite lookup_delete in Hi|].
    rewrite lookup_delete_ne in Hi by done. rewrite list_lookup_insert_ne in Hb; [by eapply HP|].
    intros <-. apply Hne. by eapply so_inj.
Qed.
Lemma has_write_slot_store s w F st si c st' out pk : st_ok st -> st_kept st -> process_slot F st si c = Done (st', out) ->
  entry_has (has_write s w) st pk -> entry_has (has_write s w) st' pk.
Proof.
  intros Hok HK H HP i b' Hi Hb'. destruct (process_slot_spec F st si c Hok) as (st1 & sl & wa & H1 & Hph & Hsl & Hse).
  rewrite H1 in H. injection H as <- <-.
  pose proof (index_back _ _ _ _ _ _ _ _ Hok Hse Hi) as Hi0. destruct (so_entry _ _ _ Hok Hi0) as (b & Hb & Hbc & _).
  pose proof (slot_version F st si c wa st1 pk i b Hok Hse Hi0 Hb) as Hv. destruct (wa !! i) as [t|] eqn:Hw.
  - destruct (prom_after F b t c) as [[b2 del] rep] eqn:Hp. destruct Hv as [Hv1 Hv2].
    destruct del; [congruence|]. apply prom_after_keep in Hp as [-> _]. rewrite Hb' in Hv2. injection Hv2 as ->.
    destruct (slot_phase_spec _ _ _ _ _ Hph) as (Hwa & _). destruct (Hwa _ _ Hw) as (_ & ss1 & Hss1 & Hin1).
    apply has_write_promote; [done|by eapply (HK pk i b t ss1)|by eapply HP].
  - destruct Hv as [_ Hv]. rewrite Hb' in Hv. injection Hv as ->. by eapply HP.
Qed.
