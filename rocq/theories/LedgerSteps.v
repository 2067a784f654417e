(** On an orderly stream the store shows the ledger: loading, announcements and writes keep the invariant. *)
From Verif Require Import Base SMap DataModel FilterModel BincodeModel ByCommitModel ByCommitSpec ByCommitProofs
  StoreModel StoreSpec StoreProofs StoreSlot StoreViews StoreHist LedgerSpec LedgerProofs LedgerInv.

(** An account that must not be dropped. *)
Definition safe (pk : pubkey) (F : filt) (D : acct -> Prop) : Prop :=
  (forall a, D a -> d_pubkey a = pk -> fl_sat F a = true) /\
  ((forall a, D a -> d_pubkey a = pk -> alive a) \/ (forall a b, D a -> D b -> d_pubkey a = pk -> d_pubkey b = pk -> d_owner a = d_owner b)).
Lemma safe_drops pk F D c x y : safe pk F D -> D x -> D y -> d_pubkey x = pk -> d_pubkey y = pk -> drops F c x y = false.
Proof.
  intros [H1 H2] Hx Hy Ex Ey. destruct (drops F c x y) eqn:Hd; [|done]. apply drops_true in Hd as (_ & Ho & Hd). destruct H2 as [H2|H2].
  - destruct Hd as [Hd|Hd]; [|rewrite H1 in Hd; done]. specialize (H2 y Hy Ey). apply is_deleted_alive in H2. congruence.
  - by destruct Ho; apply H2.
Qed.

(** What may be delivered of the account: [m] tells whether it may be closed. *)
Definition tame (m : bool) (pk : pubkey) (F : filt) (L : ledger) : Prop :=
  if m then (forall x, vers pk L x -> alive x -> fl_sat F x = true) /\ (forall x, vers pk L x -> alive x \/ forall y, vers pk L y -> y = x \/ ~ version_le x y)
  else safe pk F (vers pk L).
Definition fresh (m : bool) (pk : pubkey) (L : ledger) (a : acct) : Prop := m = true -> d_pubkey a = pk -> forall x, vers pk L x -> alive x.
Lemma fresh_gone m pk L a : d_pubkey a = pk -> fresh m pk L a -> gone pk m L -> forall x, ~ vers pk L x.
Proof. intros Ha Hf [H|(Hm & x & Hx & Hd & _)]; [done|]. by destruct Hd; apply Hf. Qed.
(** A version that is not admitted or makes the store drop the account closes it. *)
Lemma tame_out m pk F L x : tame m pk F L -> vers pk L x -> (m = false -> False) -> (is_deleted x = true \/ fl_sat F x = false) ->
  m = true /\ ~ alive x /\ forall y, vers pk L y -> y = x \/ ~ version_le x y.
Proof.
  intros Ht Hx Hm Ho. destruct m; [|by destruct Hm]. destruct Ht as [H1 H2]. assert (~ alive x) as Hd.
  { intros Hal. destruct Ho as [Ho|Ho]; [apply is_deleted_alive in Hal; congruence|rewrite H1 in Ho; done]. }
  split; [done|]. split; [done|]. destruct (H2 x Hx) as [?|?]; done.
Qed.
Lemma counts_other L L' c a : lg_base L' = lg_base L -> lg_writes L' = lg_writes L -> lg_conf L' = lg_conf L -> lg_fin L' = lg_fin L ->
  (forall t, (lg_conf L = Some t \/ lg_fin L = Some t) -> branch L t (d_slot a) <-> branch L' t (d_slot a)) -> counts L c a <-> counts L' c a.
Proof.
  intros E1 E2 E3 E4 H. unfold counts. rewrite E1, E2, E3, E4. destruct c; [done|..].
  - split; (intros [?|(? & t & Ht & Hb)]; [by left|right; split; [done|]; exists t; split; [done|]; apply H; auto]).
  - split; (intros [?|(? & t & Ht & Hb)]; [by left|right; split; [done|]; exists t; split; [done|]; apply H; auto]).
Qed.

Lemma bc_all_mono (P Q : acct -> Prop) b : (forall a, P a -> Q a) -> bc_all P b -> bc_all Q b.
Proof. intros H (H1 & H2 & H3). split_and!; eauto. Qed.

Lemma reject_gone m pk F L L' a : d_pubkey a = pk -> tame m pk F L' -> fresh m pk L a -> gone pk m L -> (forall x, vers pk L' x <-> vers pk L x \/ x = a) ->
  fl_sat F a = false -> gone pk m L'.
Proof.
  intros Ha Ht Hf Hg Hv Hs. pose proof (fresh_gone _ _ _ _ Ha Hf Hg) as Hn. assert (vers pk L' a) as Hva by (apply Hv; by right).
  destruct (tame_out m pk F L' a) as (Hm & Hd & Hall); [done|done| |by right|].
  { intros ->. destruct Ht as [Ht _]. rewrite Ht in Hs; done. }
  right. split; [done|]. exists a. split_and!; [done..|]. left. intros y [Hy| ->]%Hv; [by destruct (Hn y)|done].
Qed.
(** ** Loading *)
Lemma load_slots L sl a i sl' c' : lg_ok L -> lg_root L = None -> slot_inv L sl -> add_to_status sl (d_slot a) i Finalized = (sl', c') ->
  slot_inv (Ledger (lg_base L ++ [a]) None (lg_parent L) (lg_writes L) (lg_conf L) (lg_fin L)) sl'.
Proof.
  intros Hok Hr [H1 H2 H3 H4 H5] Hadd. destruct (lo_none _ Hok Hr) as (Ep & Ew & Ec & Ef). apply add_to_status_spec in Hadd as (_ & Hne & ss' & Hs & _ & Hp & Hacc).
  constructor; simpl; rewrite ?Ep, ?Ec, ?Ef; unfold bottom, known; simpl; rewrite ?Ep, ?Ef; try done.
  - intros _ s ss Hss. destruct (decide (s = d_slot a)) as [->|Hn].
    2: { rewrite Hne in Hss by done. destruct (H1 Hr _ _ Hss) as (? & ? & x & ? & ?). split_and!; [done..|exists x; set_solver]. }
    rewrite Hs in Hss. injection Hss as <-. split_and!; [| |exists a; set_solver].
    + apply set_eq. intros j. rewrite Hacc. split; [|set_solver]. intros [(s0 & Hs0 & Hj)|[_ ?]]; [|done]. destruct (H1 Hr _ _ Hs0) as [E _]. by rewrite E in Hj.
    + rewrite Hp. destruct (sl !! d_slot a) as [s0|] eqn:Hs0; [|done]. simpl. by destruct (H1 Hr _ _ Hs0) as (_ & ? & _).
  - intros s ss [? H]. by rewrite lookup_empty in H.
Qed.
Lemma load_step m pk L st F a st' r : lg_ok L -> st_ok st -> lg_root L = None ->
  update_account F st a Finalized = Done (st', r) ->
  let L' := Ledger (lg_base L ++ [a]) None (lg_parent L) (lg_writes L) (lg_conf L) (lg_fin L) in
  tame m pk F L' -> fresh m pk L a ->
  slot_inv L (st_slots st) -> pk_inv pk m L st -> slot_inv L' (st_slots st') /\ pk_inv pk m L' st'.
Proof.
  intros Hok Hst Hr Hu L' Htame Hfresh Hsv Hpk. destruct (lo_none _ Hok Hr) as (Ep & Ew & Ec & Ef).
  assert (forall c x, counts L' c x <-> counts L c x \/ x = a) as Hcnt.
  { intros c x. unfold counts, L'. simpl. rewrite elem_of_app, elem_of_list_singleton, Ew. split; [intros [[?| ->]|[? _]]; [auto..|set_solver]|intros [[?|[? _]]| ->]; [auto|set_solver|auto]]. }
  assert (forall t, ~ known L' t) as Hk by (intros t; unfold known; simpl; rewrite Ep, lookup_empty; by intros [? ?]).
  assert (forall x, vers pk L' x <-> vers pk L x \/ (x = a /\ d_pubkey a = pk)) as Hvers.
  { intros x. unfold vers, L'. simpl. rewrite elem_of_app, elem_of_list_singleton. naive_solver. }
  assert (d_pubkey a <> pk -> gone pk m L -> gone pk m L') as Hgone.
  { intros Hne. apply gone_mono; [intros x; rewrite Hvers; naive_solver|]. intros x Hx. apply Hcnt. by left. }
  assert (d_pubkey a <> pk -> forall i b sl sl', entry_inv pk L sl i b -> entry_inv pk L' sl' i b) as Hother.
  { intros Hne i b sl sl' [I1 I2 I3 I4 I5 I6]. 
    assert (forall c o, in_ledger L pk c o -> in_ledger L' pk c o) as Hl. { intros c o. apply in_ledger_ext. intros x Hx. rewrite Hcnt. split; [by left|intros [?| ->]; done]. }
    constructor; [|by auto..| |].
    - eapply bc_all_mono; [|exact I1]. intros x. simpl. rewrite elem_of_app. tauto.
    - intros t Ht. by destruct (Hk t).
    - intros t β ss _ _ Ht. by destruct (Hk t). }
  pose proof (update_account_inv F st a Finalized st' r Hst Hu) as Hc. unfold pk_inv in *.
  destruct Hc as [Hi Hs|sl' cx Hi Hs Hadd|i b sl' c' b' upd ow' Hi Hb Hadd Hup Hud Hud0|i b sl' c' b' prev ow' Hi Hb Hadd Hup Hprev Hud]; simpl.
  - split.
    + destruct Hsv as [H1 H2 H3 H4 H5]. constructor.
      * intros _ s ss Hss. destruct (H1 Hr _ _ Hss) as (? & ? & x & ? & ?). split_and!; [done..|exists x; simpl; set_solver].
      * intros r' s [=].
      * intros β q ss _ Hq. destruct (Hk β). by exists q.
      * intros β s _ Hs'. by destruct (Hk s).
      * intros s ss Hs'. by destruct (Hk s).
    + destruct (decide (d_pubkey a = pk)) as [Hpa|Hne].
      { rewrite Hpa in Hi. rewrite Hi in *. apply (reject_gone m pk F L L' a); try done. intros x. rewrite Hvers. naive_solver. }
      destruct (st_index st !! pk) as [i|]; [destruct Hpk as (b & Hb & Hei); exists b; split; [done|]; by eapply Hother|]. by apply Hgone.
  - split; [by eapply load_slots|]. destruct (decide (d_pubkey a = pk)) as [Hpa|Hne].
    + rewrite Hpa, lookup_insert. exists (bc_new a Finalized). split; [by rewrite lookup_app_r, Nat.sub_diag by lia|].
      rewrite Hpa in Hi. rewrite Hi in Hpk. pose proof (fresh_gone _ _ _ _ Hpa Hfresh Hpk) as Hnone.
      assert (forall c, in_ledger L' pk c (Some a)) as Hl.
      { intros c. split; [split; [|done]; apply Hcnt; by right|]. intros x [[Hx| ->]%Hcnt Ex]; [|apply version_le_refl].
        destruct (Hnone x). split; [|done]. destruct Hx as [?|[? _]]; auto. }
      constructor; [|by apply Hl..| |].
      * assert (a ∈ lg_base L ++ [a]) as Hin by set_solver. split_and!; simpl.
        -- intros k x. destruct (k =? d_slot a); [|done]. intros [= ->]. by left.
        -- intros x [= ->]. by left.
        -- intros x [= ->]. by left.
      * intros t Ht. by destruct (Hk t).
      * intros t β ss _ _ Ht. by destruct (Hk t).
    + rewrite lookup_insert_ne by done. destruct (st_index st !! pk) as [i|] eqn:Hpi.
      * destruct Hpk as (b & Hb & Hei). exists b. split; [|by eapply Hother]. rewrite lookup_app_l; [done|]. by eapply lookup_lt_Some.
      * by apply Hgone.
  - split; [by eapply load_slots|]. pose proof (add_to_status_spec _ _ _ _ _ _ Hadd) as (-> & _).
    destruct (decide (d_pubkey a = pk)) as [Hpa|Hne].
    + rewrite Hpa in Hi. rewrite Hi in Hpk |- *. destruct Hpk as (b0 & Hb0 & [I1 I2 I3 I4 I5 I6]). rewrite Hb in Hb0. injection Hb0 as <-.
      exists b'. split; [by apply list_lookup_insert, (so_bound _ Hst _ _ Hi)|].
      assert (b' = (bc_update b a Finalized).1) as -> by (by rewrite Hup).
      destruct (so_pk _ Hst _ _ _ Hi Hb) as [_ Hne].
      constructor.
      * apply bc_all_update; [|left; simpl; set_solver]. eapply bc_all_mono; [|exact I1]. intros x. simpl. rewrite elem_of_app. tauto.
      * rewrite bc_update_unfold. simpl. by apply (in_ledger_add pk L L').
      * rewrite bc_update_unfold. simpl. by apply (in_ledger_add pk L L').
      * apply (processed_add (fun x => counts L Processed x /\ d_pubkey x = pk)); [exact (so_bc _ Hst _ _ Hb)|done| |done].
        intros x. rewrite Hcnt. naive_solver.
      * intros t Ht. by destruct (Hk t).
      * intros t β ss _ _ Ht. by destruct (Hk t).
    + destruct (st_index st !! pk) as [j|] eqn:Hpi.
      * destruct Hpk as (b0 & Hb0 & Hei). exists b0. split; [|by eapply Hother]. rewrite list_lookup_insert_ne; [done|]. intros ->. apply Hne. by eapply (so_inj _ Hst).
      * by apply Hgone.
  - split; [by eapply load_slots|]. pose proof (add_to_status_spec _ _ _ _ _ _ Hadd) as (-> & _).
    destruct (decide (d_pubkey a = pk)) as [Hpa|Hne].
    + rewrite Hpa in Hi. rewrite Hi in Hpk. rewrite Hpa, lookup_delete. destruct Hpk as (b0 & Hb0 & [I1 _ _ _ _ _]). rewrite Hb in Hb0. injection Hb0 as <-.
      pose proof (entry_pk _ _ _ _ _ _ Hst Hi Hb Hprev) as Hppk.
      destruct (update_owner_delete_spec F (st_owners st) prev a i Finalized) as (ow2 & del2 & H2 & Hdel & _); [by rewrite Hpa|].
      rewrite Hud in H2. injection H2 as <- <-. destruct (proj1 Hdel eq_refl) as (Hx1 & Hx2 & Hx3).
      assert (vers pk L' a) as Hva by (apply Hvers; by right).
      destruct (tame_out m pk F L' a) as (Hm & Hd & Hall); [done|done| |naive_solver|].
      { intros ->. assert (drops F Finalized prev a = true) as Hd by (apply drops_true; naive_solver).
        rewrite (safe_drops pk F (vers pk L')) in Hd; try done. apply Hvers. left. split; [|done].
        exact (bc_all_get _ b Finalized prev (so_bc _ Hst _ _ Hb) I1 Hprev). }
      right. split; [done|]. exists a. split_and!; [done..|]. right. apply Hcnt. by right.
    + rewrite lookup_delete_ne by done. destruct (st_index st !! pk) as [j|] eqn:Hpi.
      * destruct Hpk as (b0 & Hb0 & Hei). exists b0. split; [|by eapply Hother]. rewrite list_lookup_insert_ne; [done|]. intros ->. apply Hne. by eapply (so_inj _ Hst).
      * by apply Hgone.
Qed.

(** ** Announcements *)
Lemma announce_new F st si : st_slots st !! si_slot si = None ->
  process_slot F st si Processed =
    Done (Store (st_index st) (st_owners st) (<[si_slot si := Status Processed ∅ (Some (si_parent si))]> (st_slots st)) (st_accounts st), []).
Proof. intros H. unfold process_slot, slot_phase. simpl. rewrite H. simpl. by rewrite map_to_list_empty. Qed.
Lemma announce_known F st si c ss : st_slots st !! si_slot si = Some ss -> ss_commit ss = c -> c <> Finalized ->
  process_slot F st si c = Done (st, []).
Proof.
  intros H Hc Hf. unfold process_slot, slot_phase. simpl. rewrite H. rewrite bool_decide_true by done. simpl. rewrite map_to_list_empty. simpl.
  destruct c; [by destruct st..|done].
Qed.
Lemma announce_inv m pk L st si (L' : ledger) :
  lg_ok L -> lg_ok L' -> st_ok st -> slot_inv L (st_slots st) -> pk_inv pk m L st ->
  ~ known L (si_slot si) -> (forall x y, lg_parent L !! x = Some y -> y <> si_slot si) -> 
  (lg_root L = None -> forall a, a ∈ lg_base L -> d_slot a < si_slot si) -> (forall p, known L p -> exists r, lg_root L = Some r /\ r < si_slot si) ->
  st_slots st !! si_slot si = None ->
  lg_base L' = lg_base L -> lg_parent L' = <[si_slot si := si_parent si]> (lg_parent L) -> lg_writes L' = lg_writes L -> lg_conf L' = lg_conf L -> lg_fin L' = lg_fin L ->
  (lg_root L' = lg_root L /\ is_Some (lg_root L) \/ lg_root L = None /\ lg_root L' = Some (si_slot si)) ->
  let sl' := <[si_slot si := Status Processed ∅ (Some (si_parent si))]> (st_slots st) in
  slot_inv L' sl' /\ pk_inv pk m L' (Store (st_index st) (st_owners st) sl' (st_accounts st)).
Proof.
  intros Hok Hok' Hst Hsv Hpk Hn Hno Hbase0 Hroot Hsl E1 E2 E3 E4 E5 Er sl'. set (s := si_slot si) in *.
  assert (forall x, known L' x <-> known L x \/ x = s) as Hk.
  { intros x. unfold known. rewrite E2. destruct (decide (x = s)) as [->|Hne]; [rewrite lookup_insert; split; eauto|rewrite lookup_insert_ne by done].
    split; [by left|intros [?| ->]; done]. }
  assert (forall x, x <> s -> lg_parent L' !! x = lg_parent L !! x) as Hp by (intros x Hx; by rewrite E2, lookup_insert_ne).
  assert (forall t x, t <> s -> branch L t x <-> branch L' t x) as Hbr.
  { intros t x Ht. split; [|by eapply branch_less]. apply branch_more. intros y z Hyz. rewrite Hp; [done|]. intros ->. apply Hn. by exists z. }
  assert (forall t, lg_conf L = Some t -> t <> s) as Hcs by (intros t Ht ->; apply Hn; by apply (lo_conf _ Hok)).
  assert (forall t, lg_fin L = Some t -> t <> s) as Hfs.
  { intros t Ht ->. apply Hn. destruct (lo_fin _ Hok _ Ht) as (? & _ & _ & ?). done. }
  assert (forall x, committed L' x <-> committed L x) as Hcm.
  { intros x. unfold committed. rewrite E4. split; intros (t & Ht & Hb); exists t; (split; [done|]); apply (Hbr t x); auto. }
  assert (forall c a, counts L c a <-> counts L' c a) as Hcnt.
  { intros c a. apply counts_other; try done. intros t [Ht|Ht]; apply Hbr; auto. }
  assert (bottom L' = bottom L /\ is_Some (lg_root L) \/ lg_root L = None /\ bottom L' = Some s) as Hbot.
  { unfold bottom. rewrite E5. destruct Er as [[-> ?]|[Hr ->]]; [by left|right]. destruct (lo_none _ Hok Hr) as (_ & _ & _ & ->). done. }
  assert (forall t, mine pk L' t = mine pk L t) as Hmine by (intros t; unfold mine; by rewrite E3).
  assert (forall a, ~ mine pk L s a) as Hms by (intros a (Ha & _ & Hs); apply Hn; rewrite <- Hs; by apply (lo_writes _ Hok)).
  destruct Hsv as [V1 V2 V3 V4 V5]. split; [constructor|].
  - intros Hr. destruct Er as [[Hr' [r ?]]|[_ Hr']]; congruence.
  - intros r x Hr [ss Hx]. apply lookup_insert_Some in Hx as [[<- _]|[Hxs Hx]]; [left; apply Hk; by right|].
    destruct Er as [[Hr' _]|[Hr0 Hr']].
    + destruct (V2 r x) as [?|?]; [congruence|by eexists|left; apply Hk; by left|by right].
    + right. destruct (V1 Hr0 _ _ Hx) as (_ & _ & a & Ha & <-). assert (r = s) as -> by congruence. by apply Hbase0.
  - intros β q ss Hβ Hq Hss. destruct Hbot as [[Hb _]|[Hr0 Hb]].
    + rewrite Hb in Hβ. assert (β <> s) as Hbs by (intros ->; apply Hn; by apply (bottom_known _ _ Hok)). rewrite Hp in Hq by done.
      unfold sl' in Hss. rewrite lookup_insert_ne in Hss by (intros <-; by apply (Hno β s)). by apply (V3 β q ss).
    + rewrite Hb in Hβ. injection Hβ as <-. rewrite E2, lookup_insert in Hq. injection Hq as <-.
      assert (si_parent si < s) by (destruct (lo_parent _ Hok' s (si_parent si)); [by rewrite E2, lookup_insert|done]).
      unfold sl' in Hss. rewrite lookup_insert_ne in Hss by lia. destruct (V1 Hr0 _ _ Hss) as (? & ? & _). auto.
  - intros β x Hβ Hx Hge. destruct (decide (x = s)) as [->|Hxs].
    + unfold sl'. rewrite lookup_insert. eexists. split; [done|]. split; [by rewrite E2, lookup_insert|]. intros Hc%Hcm.
      destruct Hc as (? & _ & _ & ?). done.
    + apply Hk in Hx as [Hx|?]; [|done]. destruct Hbot as [[Hb _]|[Hr0 _]].
      * rewrite Hb in Hβ. destruct (V4 β x Hβ Hx Hge) as (ss & H1 & H2 & H3). exists ss. unfold sl'. rewrite lookup_insert_ne by done.
        split; [done|]. split; [by rewrite Hp|]. intros Hc%Hcm. rewrite E5. auto.
      * destruct (known_root _ _ Hok Hx). congruence.
  - intros x ss Hx Hc Hss. rewrite Hcm in Hc. apply lookup_insert_Some in Hss as [[<- <-]|[Hxs Hss]]; [done|]. apply Hk in Hx as [Hx|?]; [|done]. by apply (V5 x).
  - unfold pk_inv in *. simpl. destruct (st_index st !! pk) as [i|] eqn:Hi; [|apply (gone_mono pk m L); [intros x; unfold vers; by rewrite E1, E3|intros x; apply Hcnt|done]]. destruct Hpk as (b & Hb & [I1 I2 I3 I4 I5 I6]).
    exists b. split; [done|]. constructor.
    + by rewrite E1, E3.
    + by eapply in_ledger_ext; [|exact I2].
    + by eapply in_ledger_ext; [|exact I3].
    + by eapply in_ledger_ext; [|exact I4].
    + intros t Ht Hf. rewrite Hmine. rewrite E5 in Hf. destruct (decide (t = s)) as [->|Hts]; [|apply Hk in Ht as [Ht|?]; [by apply I5|done]].
      destruct (sm_get s (bc_proc b)) as [x|] eqn:Hx; [exfalso|done]. destruct I1 as (B1 & _). pose proof (ok_key _ (so_bc _ Hst _ _ Hb) _ _ Hx) as Hxs.
      destruct (B1 _ _ Hx) as [Hxb|Hxw]; [|apply Hn; rewrite <- Hxs; by apply (lo_writes _ Hok)].
      destruct (lg_root L) as [r|] eqn:Hr; [|pose proof (Hbase0 eq_refl _ Hxb); lia]. pose proof (lo_base _ Hok _ _ Hxb Hr).
      destruct (Hroot r (lo_root _ Hok _ Hr)) as (r' & [= <-] & ?). lia.
    + intros t β ss Hβ Hge Ht Hss. rewrite Hmine. apply lookup_insert_Some in Hss as [[<- <-]|[Hts Hss]].
      * simpl. split; [set_solver|]. intros [a Ha]. by destruct (Hms a).
      * apply Hk in Ht as [Ht|?]; [|done]. destruct Hbot as [[Hb' _]|[Hr0 _]]; [|destruct (known_root _ _ Hok Ht); congruence].
        rewrite Hb' in Hβ. by apply (I6 t β ss).
Qed.
Lemma announce_root_step m pk L st si F st' out : lg_ok L -> st_ok st -> slot_inv L (st_slots st) -> pk_inv pk m L st ->
  lg_root L = None -> si_parent si < si_slot si -> (forall a, a ∈ lg_base L -> d_slot a < si_slot si) ->
  process_slot F st si Processed = Done (st', out) ->
  let L' := Ledger (lg_base L) (Some (si_slot si)) (<[si_slot si := si_parent si]> (lg_parent L)) (lg_writes L) (lg_conf L) (lg_fin L) in
  slot_inv L' (st_slots st') /\ pk_inv pk m L' st'.
Proof.
  intros Hok Hst Hsv Hpk Hr Hlt Hbase Hp L'. assert (lg_ok L') as Hok' by (eapply lg_ok_event; [exact Hok|]; by apply (ev_root L si)).
  destruct (new_slot_fresh L (si_slot si) Hok) as [Hn Hno]; [by left|].
  assert (st_slots st !! si_slot si = None) as Hs.
  { destruct (st_slots st !! si_slot si) as [ss|] eqn:Hss; [|done]. destruct (sv_pre _ _ Hsv Hr _ _ Hss) as (_ & _ & a & Ha & Hd). pose proof (Hbase a Ha). lia. }
  rewrite announce_new in Hp by done. injection Hp as <- <-. apply (announce_inv m pk L st si L'); try done.
  - intros p Hk. destruct (known_root _ _ Hok Hk). congruence.
  - by right.
Qed.
Lemma announce_slot_step m pk L st si F st' out : lg_ok L -> st_ok st -> slot_inv L (st_slots st) -> pk_inv pk m L st ->
  ~ known L (si_slot si) -> known L (si_parent si) -> si_parent si < si_slot si ->
  process_slot F st si Processed = Done (st', out) ->
  let L' := Ledger (lg_base L) (lg_root L) (<[si_slot si := si_parent si]> (lg_parent L)) (lg_writes L) (lg_conf L) (lg_fin L) in
  slot_inv L' (st_slots st') /\ pk_inv pk m L' st'.
Proof.
  intros Hok Hst Hsv Hpk Hn Hkp Hlt Hp L'. assert (lg_ok L') as Hok' by (eapply lg_ok_event; [exact Hok|]; by apply (ev_slot L si)).
  destruct (new_slot_fresh L (si_slot si) Hok) as [_ Hno]; [right; eauto|]. destruct (known_root _ _ Hok Hkp) as [r Hr].
  pose proof (lo_min _ Hok _ _ Hkp Hr) as Hmin.
  assert (st_slots st !! si_slot si = None) as Hs.
  { destruct (st_slots st !! si_slot si) as [ss|] eqn:Hss; [|done]. destruct (sv_dom _ _ Hsv r (si_slot si) Hr) as [?|?]; [by eexists|done|lia]. }
  rewrite announce_new in Hp by done. injection Hp as <- <-. apply (announce_inv m pk L st si L'); try done.
  - congruence.
  - intros p Hk. exists r. split; [done|lia].
  - left. split; [done|by exists r].
Qed.
Lemma store_eta st : Store (st_index st) (st_owners st) (st_slots st) (st_accounts st) = st.
Proof. by destruct st. Qed.
Lemma announce_again_step m pk L st si F st' out : lg_ok L -> st_ok st -> slot_inv L (st_slots st) -> pk_inv pk m L st ->
  lg_parent L !! si_slot si = Some (si_parent si) -> ~ committed L (si_slot si) -> process_slot F st si Processed = Done (st', out) ->
  slot_inv L (st_slots st') /\ pk_inv pk m L st'.
Proof.
  intros Hok Hst Hsv Hpk Hsp Hnc Hp. assert (known L (si_slot si)) as Hk by by eexists.
  destruct (st_slots st !! si_slot si) as [ss|] eqn:Hs.
  { rewrite (announce_known F st si Processed ss) in Hp; [|done|by apply (sv_open _ _ Hsv (si_slot si))|done]. by injection Hp as <- <-. }
  rewrite announce_new in Hp by done. injection Hp as <- <-. simpl.
  destruct (bottom_some _ _ Hok Hk) as (β & q & Hβ & Hq & _).
  assert (si_slot si < β) as Hlow. { destruct (decide (si_slot si < β)) as [|Hge]; [done|]. destruct (sv_known _ _ Hsv β _ Hβ Hk ltac:(lia)) as (? & ? & _). congruence. }
  assert (si_slot si <> q) as Hnq. { intros <-. apply Hnc. by eapply bottom_parent. }
  destruct (known_root _ _ Hok Hk) as [r Hr].
  destruct Hsv as [V1 V2 V3 V4 V5]. split; [constructor|].
  - congruence.
  - intros r' x Hr' [sx Hx]. apply lookup_insert_Some in Hx as [[<- _]|[_ Hx]]; [by left|]. apply (V2 r' x Hr'). by exists sx.
  - intros β' q' sq Hβ' Hq' Hsq. rewrite Hβ in Hβ'. injection Hβ' as <-. rewrite Hq in Hq'. injection Hq' as <-. rewrite lookup_insert_ne in Hsq by done. by apply (V3 β q sq).
  - intros β' x Hβ' Hx Hge. rewrite Hβ in Hβ'. injection Hβ' as <-. rewrite lookup_insert_ne by lia. by apply (V4 β).
  - intros x sx Hx Hc Hsx. apply lookup_insert_Some in Hsx as [[<- <-]|[_ Hsx]]; [done|by apply (V5 x)].
  - unfold pk_inv in *. simpl. destruct (st_index st !! pk) as [i|]; [|done]. destruct Hpk as (b & Hb & [I1 I2 I3 I4 I5 I6]). exists b. split; [done|].
    constructor; [done..|]. intros t β' ss Hβ' Hge Ht Hss. rewrite Hβ in Hβ'. injection Hβ' as <-. rewrite lookup_insert_ne in Hss by lia. by apply (I6 t β).
Qed.

(** ** Writes *)
Section write.
Context (pk : pubkey) (L : ledger) (a : acct).
Let L' := Ledger (lg_base L) (lg_root L) (lg_parent L) (lg_writes L ++ [a]) (lg_conf L) (lg_fin L).
Hypothesis Hok : lg_ok L.
Hypothesis Hk : known L (d_slot a).
Hypothesis Hnc : ~ committed L (d_slot a).
Lemma write_slots sl i sl' c' : slot_inv L sl -> add_to_status sl (d_slot a) i Processed = (sl', c') -> slot_inv L' sl' /\ c' = Processed.
Proof.
  intros [V1 V2 V3 V4 V5] Hadd. apply add_to_status_spec in Hadd as (-> & Hne & ss' & Hs & Hc & Hp & Hacc).
  assert (match sl !! d_slot a with Some ss => ss_commit ss | None => Processed end = Processed) as HP.
  { destruct (sl !! d_slot a) as [ss|] eqn:Hss; [by apply (V5 (d_slot a))|done]. }
  split; [|done]. destruct (known_root _ _ Hok Hk) as [r Hr]. constructor.
  - simpl. congruence.
  - intros r' x Hr' Hx. destruct (decide (x = d_slot a)) as [->|Hx']; [by left|]. rewrite Hne in Hx by done. by apply (V2 r').
  - intros β q sq Hβ Hq Hsq. assert (q <> d_slot a) as Hqa by (intros ->; apply Hnc; by apply (bottom_parent L β)). rewrite Hne in Hsq by done. by apply (V3 β q).
  - intros β x Hβ Hx Hge. destruct (V4 β x Hβ Hx Hge) as (sx & H1 & H2 & H3). destruct (decide (x = d_slot a)) as [->|Hxa]; [|exists sx; by rewrite Hne].
    exists ss'. split; [done|]. rewrite H1 in Hp. split; [by rewrite Hp|]. intros Hcm. by destruct Hnc.
  - intros x sx Hx Hcx Hsx. destruct (decide (x = d_slot a)) as [->|Hxa]; [|rewrite Hne in Hsx by done; by apply (V5 x)].
    rewrite Hs in Hsx. injection Hsx as <-. congruence.
Qed.
Lemma write_counts c x : c <> Processed -> counts L c x <-> counts L' c x.
Proof.
  intros Hc. unfold counts, L'. simpl. rewrite elem_of_app, elem_of_list_singleton. split.
  { intros [?|[? ?]]; [by left|right]. split; [by left|by destruct c]. }
  intros [?|[[Hx| ->] Hm]]; [by left|right; split; [done|by destruct c]|]. exfalso. apply Hnc. destruct c; [done|exact Hm|].
  destruct Hm as (t & Ht & Hb). eapply committed_branch; [by apply (lo_fin _ Hok)|done].
Qed.
Lemma write_counts_proc x : counts L' Processed x <-> counts L Processed x \/ x = a.
Proof. unfold counts, L'. simpl. rewrite elem_of_app, elem_of_list_singleton. naive_solver. Qed.
Lemma write_mine t x : mine pk L' t x <-> mine pk L t x \/ (x = a /\ d_pubkey a = pk /\ d_slot a = t).
Proof. unfold mine, L'. simpl. rewrite elem_of_app, elem_of_list_singleton. naive_solver. Qed.
Lemma write_other sl i b sl' j c' : i <> j -> d_pubkey a <> pk -> add_to_status sl (d_slot a) i Processed = (sl', c') ->
  slot_inv L sl -> entry_inv pk L sl j b -> entry_inv pk L' sl' j b.
Proof.
  intros Hij Hne Hadd Hsv [I1 I2 I3 I4 I5 I6]. apply add_to_status_spec in Hadd as (-> & Hsame & ss' & Hs & Hc & Hp & Hacc). constructor.
  - eapply bc_all_mono; [|exact I1]. intros x. simpl. rewrite elem_of_app. tauto.
  - eapply in_ledger_ext; [|exact I2]. intros x _. by apply write_counts.
  - eapply in_ledger_ext; [|exact I3]. intros x _. by apply write_counts.
  - eapply in_ledger_ext; [|exact I4]. intros x Hx. rewrite write_counts_proc. split; [by left|intros [?| ->]; done].
  - intros t Ht Hf. eapply latest_ext; [|by apply I5]. intros x. rewrite write_mine. naive_solver.
  - intros t β ss Hβ Hge Ht Hss. setoid_rewrite write_mine. destruct (sv_known _ _ Hsv β t Hβ Ht Hge) as (s0 & Hs0 & _).
    transitivity (j ∈ ss_accounts s0); [|rewrite (I6 t β s0 Hβ Hge Ht Hs0); naive_solver].
    destruct (decide (t = d_slot a)) as [->|Hta]; [|rewrite Hsame in Hss by done; naive_solver]. rewrite Hs in Hss. injection Hss as <-. rewrite Hacc, Hs0.
    split; [intros [(? & [= <-] & ?)|[? _]]; done|eauto].
Qed.
Lemma write_acc sl i sl' c' t β ss : d_pubkey a = pk -> add_to_status sl (d_slot a) i Processed = (sl', c') -> slot_inv L sl ->
  (forall t β ss, bottom L = Some β -> β <= t -> known L t -> sl !! t = Some ss -> i ∈ ss_accounts ss <-> exists a, mine pk L t a) ->
  bottom L' = Some β -> β <= t -> known L' t -> sl' !! t = Some ss -> i ∈ ss_accounts ss <-> exists a, mine pk L' t a.
Proof.
  intros Hpa Hadd Hsv I6 Hβ Hge Ht Hss. apply add_to_status_spec in Hadd as (-> & Hsame & ss' & Hs & Hc & Hp & Hacc).
  setoid_rewrite write_mine. destruct (sv_known _ _ Hsv β t Hβ Ht Hge) as (s0 & Hs0 & _).
  destruct (decide (t = d_slot a)) as [->|Hta].
  - rewrite Hs in Hss. injection Hss as <-. rewrite Hacc. split; [|naive_solver]. intros _. exists a. by right.
  - rewrite Hsame in Hss by done. rewrite (I6 t β ss Hβ Hge Ht Hss). naive_solver.
Qed.
End write.
Lemma write_step m pk L st F a st' r : lg_ok L -> st_ok st -> known L (d_slot a) -> ~ committed L (d_slot a) ->
  update_account F st a Processed = Done (st', r) ->
  let L' := Ledger (lg_base L) (lg_root L) (lg_parent L) (lg_writes L ++ [a]) (lg_conf L) (lg_fin L) in
  tame m pk F L' -> fresh m pk L a -> slot_inv L (st_slots st) -> pk_inv pk m L st ->
  slot_inv L' (st_slots st') /\ pk_inv pk m L' st'.
Proof.
  intros Hok Hst Hk Hnc Hu L' Htame Hfresh Hsv Hpk.
  assert (forall x, vers pk L' x <-> vers pk L x \/ (x = a /\ d_pubkey a = pk)) as Hvers.
  { intros x. unfold vers, L'. simpl. rewrite elem_of_app, elem_of_list_singleton. naive_solver. }
  assert (d_pubkey a <> pk -> gone pk m L -> gone pk m L') as Hgone.
  { intros Hne. apply gone_mono; [intros x; rewrite Hvers; naive_solver|]. intros x. by apply write_counts. }
  pose proof (update_account_inv F st a Processed st' r Hst Hu) as Hc. unfold pk_inv in *.
  destruct Hc as [Hi Hs|sl' cx Hi Hs Hadd|i b sl' c' b' upd ow' Hi Hb Hadd Hup Hud Hud0|i b sl' c' b' prev ow' Hi Hb Hadd Hup Hprev Hud]; simpl.
  - split. { destruct Hsv as [V1 V2 V3 V4 V5]. by constructor. }
    destruct (decide (d_pubkey a = pk)) as [Hpa|Hne].
    { rewrite Hpa in Hi. rewrite Hi in *. apply (reject_gone m pk F L L' a); try done. intros x. rewrite Hvers. naive_solver. }
    destruct (st_index st !! pk) as [j|].
    + destruct Hpk as (b & Hb & [I1 I2 I3 I4 I5 I6]). exists b. split; [done|]. constructor.
      * eapply bc_all_mono; [|exact I1]. intros x. simpl. rewrite elem_of_app. tauto.
      * eapply in_ledger_ext; [|exact I2]. intros x _. by apply write_counts.
      * eapply in_ledger_ext; [|exact I3]. intros x _. by apply write_counts.
      * eapply in_ledger_ext; [|exact I4]. intros x Hx. unfold L'. rewrite write_counts_proc. split; [by left|intros [?| ->]; done].
      * intros t Ht Hf. eapply latest_ext; [|by apply I5]. intros x. unfold L'. rewrite write_mine. naive_solver.
      * intros t β ss Hβ Hge Ht Hss. unfold L'. setoid_rewrite write_mine. rewrite (I6 t β ss Hβ Hge Ht Hss). naive_solver.
    + by apply Hgone.
  - destruct (write_slots L a Hok Hk Hnc _ _ _ _ Hsv Hadd) as [Hsv' _]. split; [exact Hsv'|]. destruct (decide (d_pubkey a = pk)) as [Hpa|Hne].
    + rewrite Hpa, lookup_insert. exists (bc_new a Processed). split; [by rewrite lookup_app_r, Nat.sub_diag by lia|].
      rewrite Hpa in Hi. rewrite Hi in Hpk. pose proof (fresh_gone _ _ _ _ Hpa Hfresh Hpk) as Hnone.
      assert (forall c x, counts L c x -> d_pubkey x = pk -> False) as Hno.
      { intros c x Hx Ex. destruct (Hnone x). split; [|done]. destruct Hx as [?|[? _]]; auto. }
      assert (forall t x, ~ mine pk L t x) as Hnm.
      { intros t x (Hx & Ex & _). destruct (Hnone x). split; [by right|done]. }
      constructor.
      * assert (a ∈ lg_writes L ++ [a]) as Hin by set_solver. split_and!; simpl; [|done..].
        intros k x. destruct (k =? d_slot a); [|done]. intros [= ->]. by right.
      * intros x [Hx Ex]. apply write_counts in Hx; [|done..]. by eapply Hno.
      * intros x [Hx Ex]. apply write_counts in Hx; [|done..]. by eapply Hno.
      * split; [split; [by apply write_counts_proc; right|done]|]. intros x [[Hx| ->]%write_counts_proc Ex]; [|apply version_le_refl]. by destruct (Hno _ _ Hx).
      * intros t Ht _. simpl. destruct (N.eqb_spec t (d_slot a)) as [->|Hta].
        -- split; [apply write_mine; by right|]. intros x [Hx|[-> _]]%write_mine; [by destruct (Hnm _ _ Hx)|apply version_le_refl].
        -- intros x [Hx|(_ & _ & ?)]%write_mine; [by destruct (Hnm _ _ Hx)|done].
      * intros t β ss. apply (write_acc pk L a) with (sl := st_slots st) (c' := cx); try done.
        intros t' β' ss' _ _ _ Hss'. split; [|intros [x Hx]; by destruct (Hnm _ _ Hx)]. intros Hin. pose proof (so_slots _ Hst _ _ _ Hss' Hin). lia.
    + rewrite lookup_insert_ne by done. destruct (st_index st !! pk) as [j|] eqn:Hpi.
      * destruct Hpk as (b & Hb & Hei). exists b. split; [rewrite lookup_app_l; [done|]; by eapply lookup_lt_Some|].
        eapply (write_other pk L a); [done..| |done|exact Hadd|done|done]. intros <-. pose proof (so_bound _ Hst _ _ Hpi). lia.
      * by apply Hgone.
  - destruct (write_slots L a Hok Hk Hnc _ _ _ _ Hsv Hadd) as [Hsv' ->]. split; [exact Hsv'|]. destruct (decide (d_pubkey a = pk)) as [Hpa|Hne].
    + rewrite Hpa in Hi. rewrite Hi in Hpk |- *. destruct Hpk as (b0 & Hb0 & [I1 I2 I3 I4 I5 I6]). rewrite Hb in Hb0. injection Hb0 as <-.
      exists b'. split; [by apply list_lookup_insert, (so_bound _ Hst _ _ Hi)|].
      assert (b' = (bc_update b a Processed).1) as -> by (by rewrite Hup).
      destruct (so_pk _ Hst _ _ _ Hi Hb) as [_ Hne]. pose proof (so_bc _ Hst _ _ Hb) as Hbc.
      constructor.
      * apply bc_all_update; [|right; simpl; set_solver]. eapply bc_all_mono; [|exact I1]. intros x. simpl. rewrite elem_of_app. tauto.
      * rewrite bc_update_unfold. simpl. eapply in_ledger_ext; [|exact I2]. intros x _. by apply write_counts.
      * rewrite bc_update_unfold. simpl. eapply in_ledger_ext; [|exact I3]. intros x _. by apply write_counts.
      * apply (processed_add (fun x => counts L Processed x /\ d_pubkey x = pk)); [done|done| |done].
        intros x. unfold L'. rewrite write_counts_proc. naive_solver.
      * intros t Ht Hf. rewrite bc_update_unfold. simpl. specialize (I5 t Ht Hf). destruct (decide (t = d_slot a)) as [->|Hta].
        -- assert (sm_get (d_slot a) (upd_proc b a) = if newer (sm_get (d_slot a) (bc_proc b)) a then Some a else sm_get (d_slot a) (bc_proc b)) as ->.
           { unfold upd_proc. destruct (sm_get (d_slot a) (bc_proc b)) as [p|] eqn:Hp; [|by rewrite sm_get_put]. simpl.
             pose proof (ok_key _ Hbc _ _ Hp) as ->. rewrite N.ltb_irrefl, N.eqb_refl. simpl. destruct (d_wv p <? d_wv a); [by rewrite sm_get_put|done]. }
           apply (latest_add (mine pk L (d_slot a))); [|done]. intros x. unfold L'. rewrite write_mine. naive_solver.
        -- rewrite upd_proc_get_ne by done. eapply latest_ext; [|exact I5]. intros x. unfold L'. rewrite write_mine. naive_solver.
      * intros t β ss. by apply (write_acc pk L a) with (sl := st_slots st) (c' := Processed).
    + destruct (st_index st !! pk) as [j|] eqn:Hpi.
      * destruct Hpk as (b0 & Hb0 & Hei). exists b0.
        assert (i <> j) as Hij by (intros ->; apply Hne; by eapply (so_inj _ Hst)).
        split; [by rewrite list_lookup_insert_ne|]. by eapply (write_other pk L a).
      * by apply Hgone.
  - destruct (write_slots L a Hok Hk Hnc _ _ _ _ Hsv Hadd) as [Hsv' ->]. exfalso.
    destruct (update_owner_delete_spec F (st_owners st) prev a i Processed) as (ow2 & del2 & H2 & Hdel & _); [exact (entry_pk _ _ _ _ _ _ Hst Hi Hb Hprev)|].
    rewrite Hud in H2. injection H2 as <- <-. by destruct (proj1 Hdel eq_refl) as (? & _).
Qed.
