(** Two account stores that differ only in how their entries are numbered answer alike for good.  (The entries of [st_accounts] are numbered in the
    order in which the accounts arrive, inmemory_account_store.rs 236-262.) *)
From Verif Require Import Base SMap DataModel FilterModel FilterSpec FilterProofs BincodeModel
  ByCommitModel ByCommitSpec ByCommitProofs StoreModel StoreSpec StoreProofs StoreSlot StoreViews StoreHist StoreEffects ArrivalSpec.

Definition entry_of (st : store) (pk : pubkey) : option bycom := i ← st_index st !! pk; st_accounts st !! i.
Definition stage (ss : status) : commitment * option N := (ss_commit ss, ss_parent ss).
(** With [q] also the owner index agrees. *)
Record alike (q : bool) (st st' : store) : Prop := Alike {
  al_entry : forall pk, entry_of st pk = entry_of st' pk;
  al_stage : forall s, stage <$> st_slots st !! s = stage <$> st_slots st' !! s;
  al_wrote : forall pk i i' s ss ss', st_index st !! pk = Some i -> st_index st' !! pk = Some i' -> st_slots st !! s = Some ss -> st_slots st' !! s = Some ss' ->
    (i ∈ ss_accounts ss <-> i' ∈ ss_accounts ss');
  al_listed : q = true -> forall p pk i i', st_index st !! pk = Some i -> st_index st' !! pk = Some i' -> (i ∈ own (st_owners st) p <-> i' ∈ own (st_owners st') p) }.

Lemma entry_none st pk : st_ok st -> entry_of st pk = None <-> st_index st !! pk = None.
Proof.
  intros Hok. unfold entry_of. destruct (st_index st !! pk) as [i|] eqn:Hi; simpl; [|done].
  destruct (so_entry _ _ _ Hok Hi) as (b & -> & _). done.
Qed.
Lemma entry_some st pk b : entry_of st pk = Some b <-> exists i, st_index st !! pk = Some i /\ st_accounts st !! i = Some b.
Proof. unfold entry_of. destruct (st_index st !! pk) as [i|]; simpl; naive_solver. Qed.
Lemma alike_refl q st : alike q st st.
Proof. constructor; [done|done| |]; intros; simplify_eq; done. Qed.
Lemma alike_sym q st st' : alike q st st' -> alike q st' st.
Proof.
  intros [H1 H2 H3 H4]. constructor; [done|done| |]; intros.
  - symmetry. by eapply H3.
  - symmetry. by eapply H4.
Qed.
Lemma alike_index q st st' pk : st_ok st -> st_ok st' -> alike q st st' -> st_index st !! pk = None <-> st_index st' !! pk = None.
Proof. intros Hok Hok' H. rewrite <- !entry_none by done. by rewrite (al_entry _ _ _ H). Qed.
Lemma alike_trans q st st' st2 : st_ok st -> st_ok st' -> st_ok st2 -> alike q st st' -> alike q st' st2 -> alike q st st2.
Proof.
  intros Ho1 Ho2 Ho3 H H'. constructor.
  - intros pk. by rewrite (al_entry _ _ _ H), (al_entry _ _ _ H').
  - intros s. by rewrite (al_stage _ _ _ H), (al_stage _ _ _ H').
  - intros pk i k s ss ss2 Hi Hk Hs Hs2. destruct (st_index st' !! pk) as [j|] eqn:Hj.
    2:{ apply (alike_index _ _ _ _ Ho1 Ho2 H) in Hj. congruence. }
    pose proof (al_stage _ _ _ H s) as Hst. rewrite Hs in Hst. destruct (st_slots st' !! s) as [ss'|] eqn:Hs'; [|done].
    rewrite (al_wrote _ _ _ H pk i j s ss ss') by done. by eapply (al_wrote _ _ _ H' pk).
  - intros Hq p pk i k Hi Hk. destruct (st_index st' !! pk) as [j|] eqn:Hj.
    2:{ apply (alike_index _ _ _ _ Ho1 Ho2 H) in Hj. congruence. }
    rewrite (al_listed _ _ _ H Hq p pk i j) by done. by eapply (al_listed _ _ _ H' Hq p pk).
Qed.

(** ** What a delivery does to the entries, the slots and the owner index *)
Lemma status_stage sl s i c sl' c' t : add_to_status sl s i c = (sl', c') ->
  stage <$> sl' !! t = if decide (t = s) then Some (default (c, None) (stage <$> sl !! s)) else stage <$> sl !! t.
Proof.
  intros (_ & Hne & ss' & Hs & H1 & H2 & _)%add_to_status_spec. destruct (decide (t = s)) as [->|Hn]; [|by rewrite Hne].
  rewrite Hs. simpl. unfold stage at 1. rewrite H1, H2. destruct (sl !! s); done.
Qed.
Lemma status_member sl s i c sl' c' t ss' j : add_to_status sl s i c = (sl', c') -> sl' !! t = Some ss' ->
  (j ∈ ss_accounts ss' <-> (exists ss, sl !! t = Some ss /\ j ∈ ss_accounts ss) \/ (t = s /\ j = i /\ c <> Finalized)).
Proof.
  intros (_ & Hne & ss1 & Hs & _ & _ & H3)%add_to_status_spec Ht. destruct (decide (t = s)) as [->|Hn].
  - rewrite Hs in Ht. injection Ht as <-. rewrite H3. naive_solver.
  - rewrite Hne in Ht by done. naive_solver.
Qed.
Definition dropped_by (F : filt) (b : bycom) (a : acct) (c : commitment) : bool :=
  (bc_update b a c).2 && match bc_get b c with Some prev => drops F c prev a | None => false end.
(** What the owner index says about the entry after the delivery. *)
Definition owned_after (F : filt) (b : bycom) (a : acct) (c : commitment) (p : pubkey) (before : Prop) : Prop :=
  match bc_get b c with
  | Some prev => if (bc_update b a c).2 then
      (before /\ ~ (c = Finalized /\ d_owner prev <> d_owner a /\ p = d_owner prev)) \/
      (p = d_owner a /\ d_owner prev <> d_owner a /\ is_deleted a = false /\ fl_sat F a = true)
    else before
  | None => before
  end.
Record delivered_to (F : filt) (st : store) (a : acct) (c : commitment) (st1 : store) (r : bool) : Prop := DeliveredTo {
  dt_other : forall pk, pk <> d_pubkey a -> st_index st1 !! pk = st_index st !! pk /\ entry_of st1 pk = entry_of st pk;
  dt_entry : entry_of st1 (d_pubkey a) = match entry_of st (d_pubkey a) with
    | None => if fl_sat F a then Some (bc_new a c) else None
    | Some b => if dropped_by F b a (effective st a c) then None else Some (bc_update b a (effective st a c)).1 end;
  dt_same : forall pk i j, st_index st !! pk = Some i -> st_index st1 !! pk = Some j -> i = j;
  dt_result : r = match entry_of st (d_pubkey a) with None => fl_sat F a | Some b => (bc_update b a (effective st a c)).2 end;
  dt_stage : forall s, stage <$> st_slots st1 !! s =
    if decide (s = d_slot a /\ ~ (entry_of st (d_pubkey a) = None /\ fl_sat F a = false)) then Some (default (c, None) (stage <$> st_slots st !! s)) else stage <$> st_slots st !! s;
  dt_wrote : forall pk i s ss1, st_index st1 !! pk = Some i -> st_slots st1 !! s = Some ss1 ->
    (i ∈ ss_accounts ss1 <-> (st_index st !! pk = Some i /\ exists ss, st_slots st !! s = Some ss /\ i ∈ ss_accounts ss) \/ (pk = d_pubkey a /\ s = d_slot a /\ c <> Finalized));
  dt_listed : forall pk i p, st_index st1 !! pk = Some i ->
    (i ∈ own (st_owners st1) p <->
     if decide (pk = d_pubkey a) then
       match entry_of st pk with
       | None => p = d_owner a
       | Some b => owned_after F b a (effective st a c) p (exists j, st_index st !! pk = Some j /\ j ∈ own (st_owners st) p)
       end
     else i ∈ own (st_owners st) p) }.
Lemma delivery F st a c st1 r : st_ok st -> update_account F st a c = Done (st1, r) -> delivered_to F st a c st1 r.
Proof.
  intros Hok H. apply update_account_inv in H; [|done].
  destruct H as [Hi Hs|sl' cx Hi Hs Hadd|i b sl' c' b' upd ow' Hi Hb Hadd Hu Hud Hud0|i b sl' c' b' prev ow' Hi Hb Hadd Hu Hprev Hud].
  - assert (entry_of st (d_pubkey a) = None) as He by (by apply entry_none). constructor.
    + done.
    + by rewrite He, Hs.
    + intros; simplify_eq; done.
    + by rewrite He.
    + intros s. rewrite decide_False; [done|]. intros [_ Hn]. by apply Hn.
    + intros pk i s ss1 Hpk Hss. split; [intros Hin; left; eauto|]. intros [[_ (ss & Hss' & Hin)]|(-> & _ & _)]; [congruence|congruence].
    + intros pk i p Hpk. destruct (decide (pk = d_pubkey a)) as [->|]; [congruence|done].
  - assert (entry_of st (d_pubkey a) = None) as He by (by apply entry_none). set (n := length (st_accounts st)) in *.
    constructor; cbn [st_index st_owners st_slots st_accounts].
    + intros pk Hne. unfold entry_of. simpl. rewrite lookup_insert_ne by done. split; [done|]. destruct (st_index st !! pk) as [j|] eqn:Hj; [|done]. simpl.
      apply lookup_app_l. by eapply so_bound.
    + rewrite He, Hs. unfold entry_of. simpl. rewrite lookup_insert. simpl. rewrite lookup_app_r by (unfold n; lia). unfold n. by rewrite Nat.sub_diag.
    + intros pk j1 j2 H1 H2. destruct (decide (pk = d_pubkey a)) as [->|Hne]; [congruence|]. rewrite lookup_insert_ne in H2 by done. congruence.
    + by rewrite He.
    + intros s. rewrite (status_stage _ _ _ _ _ _ s Hadd). destruct (decide (s = d_slot a)) as [->|Hn].
      * rewrite decide_True; [done|]. split; [done|]. intros [_ ?]. congruence.
      * rewrite decide_False; [done|]. by intros [? _].
    + intros pk j s ss1 Hpk Hss. rewrite (status_member _ _ _ _ _ _ _ _ j Hadd Hss). split.
      * intros [(ss & Hss' & Hin)|(-> & -> & Hc)].
        -- left. split; [|eauto]. destruct (decide (pk = d_pubkey a)) as [->|Hne]; [|by rewrite lookup_insert_ne in Hpk].
           rewrite lookup_insert in Hpk. injection Hpk as <-. pose proof (so_slots _ Hok _ _ _ Hss' Hin). unfold n in *. lia.
        -- right. destruct (decide (pk = d_pubkey a)) as [->|Hne]; [done|]. rewrite lookup_insert_ne in Hpk by done. pose proof (so_bound _ Hok _ _ Hpk). unfold n in *. lia.
      * intros [[_ Hin]|(-> & -> & Hc)]; [by left|]. right. rewrite lookup_insert in Hpk. by injection Hpk as <-.
    + intros pk j p Hpk. rewrite own_add. destruct (decide (pk = d_pubkey a)) as [->|Hne].
      * rewrite lookup_insert in Hpk. injection Hpk as <-. rewrite He.
        assert (n ∉ own (st_owners st) p) as Hnp.
        { unfold own. destruct (st_owners st !! p) as [x|] eqn:Hx; simpl; [|set_solver]. intros Hin. pose proof (so_owners _ Hok _ _ _ Hx Hin). unfold n in *. lia. }
        destruct (decide (d_owner a = p)) as [<-|]; [set_solver|]. split; [done|congruence].
      * rewrite lookup_insert_ne in Hpk by done. pose proof (so_bound _ Hok _ _ Hpk) as Hlt. destruct (decide (d_owner a = p)) as [<-|]; [|done].
        rewrite elem_of_union, elem_of_singleton. split; [intros [->|?]; [unfold n in *; lia|done]|by right].
  - assert (entry_of st (d_pubkey a) = Some b) as He by (apply entry_some; eauto).
    pose proof (effective_add _ _ _ _ _ _ Hadd) as Hc. subst c'. set (k := effective st a c) in *.
    assert (i < length (st_accounts st))%nat as Hlt by (by eapply so_bound).
    assert (forall prev, bc_get b k = Some prev -> d_pubkey prev = d_pubkey a) as Hpp.
    { intros prev Hp. destruct (so_entry st _ _ Hok Hi) as (b0 & Hb0 & Hbc & Hall & _). assert (b0 = b) as -> by congruence. by eapply (bc_pk_get _ b k). }
    constructor; cbn [st_index st_owners st_slots st_accounts].
    + intros pk Hne. split; [done|]. unfold entry_of. simpl. destruct (st_index st !! pk) as [j|] eqn:Hj; [|done]. simpl.
      apply list_lookup_insert_ne. intros <-. apply Hne. by eapply so_inj.
    + rewrite He. fold k. unfold entry_of. cbn [st_index st_accounts]. rewrite Hi. cbn [mbind option_bind]. rewrite list_lookup_insert by done. unfold dropped_by. rewrite Hu. simpl.
      destruct (upd && _) eqn:Hd; [|done]. apply andb_true_iff in Hd as [-> Hd]. destruct (bc_get b k) as [prev|] eqn:Hg; [|done].
      specialize (Hud prev eq_refl eq_refl). destruct (update_owner_delete_spec F (st_owners st) prev a i k (Hpp _ eq_refl)) as (ow1 & del & H1 & H2 & _).
      rewrite H1 in Hud. injection Hud as -> ->. apply drops_true in Hd. by apply H2 in Hd.
    + intros; simplify_eq; done.
    + rewrite He. fold k. by rewrite Hu.
    + intros s. rewrite (status_stage _ _ _ _ _ _ s Hadd). destruct (decide (s = d_slot a)) as [->|Hn].
      * rewrite decide_True; [done|]. split; [done|]. intros [? _]. congruence.
      * rewrite decide_False; [done|]. by intros [? _].
    + intros pk j s ss1 Hpk Hss. rewrite (status_member _ _ _ _ _ _ _ _ j Hadd Hss). split.
      * intros [Hin|(-> & -> & Hc)]; [by left|]. right. split; [by eapply so_inj|done].
      * intros [[_ Hin]|(-> & -> & Hc)]; [by left|]. right. split; [done|]. split; [congruence|done].
    + intros pk j p Hpk. destruct (decide (pk = d_pubkey a)) as [->|Hne].
      * rewrite He. assert (j = i) as -> by congruence. fold k. unfold owned_after. rewrite Hu. cbn [snd].
        assert ((exists j, st_index st !! d_pubkey a = Some j /\ j ∈ own (st_owners st) p) <-> i ∈ own (st_owners st) p) as Hex by (rewrite Hi; naive_solver).
        destruct (bc_get b k) as [prev|] eqn:Hg; [|rewrite Hud0 by (by right); by rewrite Hex].
        destruct upd; [|rewrite Hud0 by (by left); by rewrite Hex].
        specialize (Hud prev eq_refl eq_refl). destruct (update_owner_delete_spec F (st_owners st) prev a i k (Hpp _ eq_refl)) as (ow1 & del & H1 & _ & _ & H3).
        rewrite H1 in Hud. injection Hud as -> ->. by rewrite H3, Hex.
      * assert (j <> i) as Hji by (intros ->; apply Hne; by eapply so_inj). destruct (bc_get b k) as [prev|] eqn:Hg; [|by rewrite Hud0 by (by right)].
        destruct upd; [|by rewrite Hud0 by (by left)].
        specialize (Hud prev eq_refl eq_refl). destruct (update_owner_delete_spec F (st_owners st) prev a i k (Hpp _ eq_refl)) as (ow1 & del & H1 & _ & H3 & _).
        rewrite H1 in Hud. injection Hud as -> ->. by apply H3.
  - assert (entry_of st (d_pubkey a) = Some b) as He by (apply entry_some; eauto).
    pose proof (effective_add _ _ _ _ _ _ Hadd) as Hc. subst c'. set (k := effective st a c) in *.
    assert (d_pubkey prev = d_pubkey a) as Hpp.
    { destruct (so_entry st _ _ Hok Hi) as (b0 & Hb0 & Hbc & Hall & _). assert (b0 = b) as -> by congruence. by eapply (bc_pk_get _ b k). }
    destruct (update_owner_delete_spec F (st_owners st) prev a i k Hpp) as (ow1 & del & H1 & H2 & H3 & _). rewrite H1 in Hud. injection Hud as -> ->.
    constructor; cbn [st_index st_owners st_slots st_accounts].
    + intros pk Hne. unfold entry_of. simpl. rewrite lookup_delete_ne by done. split; [done|]. destruct (st_index st !! pk) as [j|] eqn:Hj; [|done]. simpl.
      apply list_lookup_insert_ne. intros <-. apply Hne. by eapply so_inj.
    + rewrite He. fold k. unfold entry_of. cbn [st_index st_accounts]. rewrite lookup_delete. cbn [mbind option_bind]. unfold dropped_by. rewrite Hu, Hprev. simpl.
      assert (drops F k prev a = true) as -> by (apply drops_true; by apply H2). done.
    + intros pk j1 j2 Hj1 Hj2. destruct (decide (pk = d_pubkey a)) as [->|Hne]; [by rewrite lookup_delete in Hj2|]. rewrite lookup_delete_ne in Hj2 by done. congruence.
    + rewrite He. fold k. by rewrite Hu.
    + intros s. rewrite (status_stage _ _ _ _ _ _ s Hadd). destruct (decide (s = d_slot a)) as [->|Hn].
      * rewrite decide_True; [done|]. split; [done|]. intros [? _]. congruence.
      * rewrite decide_False; [done|]. by intros [? _].
    + intros pk j s ss1 Hpk Hss. destruct (decide (pk = d_pubkey a)) as [->|Hne]; [by rewrite lookup_delete in Hpk|]. rewrite lookup_delete_ne in Hpk by done.
      rewrite (status_member _ _ _ _ _ _ _ _ j Hadd Hss). split.
      * intros [Hin|(-> & -> & Hc)]; [by left|]. destruct Hne. by eapply so_inj.
      * intros [[_ Hin]|(-> & -> & Hc)]; [by left|done].
    + intros pk j p Hpk. destruct (decide (pk = d_pubkey a)) as [->|Hne]; [by rewrite lookup_delete in Hpk|]. rewrite lookup_delete_ne in Hpk by done.
      apply H3. intros ->. apply Hne. by eapply so_inj.
Qed.

Lemma stage_effective st st' a c : (forall s, stage <$> st_slots st !! s = stage <$> st_slots st' !! s) -> effective st a c = effective st' a c.
Proof.
  intros H. unfold effective. specialize (H (d_slot a)). destruct (st_slots st !! d_slot a) as [ss|], (st_slots st' !! d_slot a) as [ss'|]; simpl in H; try done.
  injection H as H _. by rewrite H.
Qed.
Lemma owned_after_iff F b a c p P Q : (P <-> Q) -> owned_after F b a c p P <-> owned_after F b a c p Q.
Proof. intros H. unfold owned_after. destruct (bc_get b c); [|done]. destruct (bc_update b a c).2; [|done]. by rewrite H. Qed.
Lemma update_alike q F st st' a c s1 s1' r r' : st_ok st -> st_ok st' -> alike q st st' ->
  update_account F st a c = Done (s1, r) -> update_account F st' a c = Done (s1', r') -> alike q s1 s1' /\ r = r'.
Proof.
  intros Hok Hok' Hal H H'. pose proof (update_ok _ _ _ _ _ _ Hok H) as Ho1. pose proof (update_ok _ _ _ _ _ _ Hok' H') as Ho1'.
  apply delivery in H as [D1 D2 D3 D4 D5 D6 D7]; [|done]. apply delivery in H' as [D1' D2' D3' D4' D5' D6' D7']; [|done].
  pose proof (stage_effective st st' a c (al_stage _ _ _ Hal)) as Heff. pose proof (al_entry _ _ _ Hal) as Hent.
  assert (forall pk, entry_of s1 pk = entry_of s1' pk) as Hent1.
  { intros pk. destruct (decide (pk = d_pubkey a)) as [->|Hne]; [by rewrite D2, D2', Hent, Heff|]. destruct (D1 _ Hne) as [_ ->]. destruct (D1' _ Hne) as [_ ->]. apply Hent. }
  split; [|by rewrite D4, D4', Hent, Heff]. constructor.
  - exact Hent1.
  - intros s. rewrite D5, D5', Hent, (al_stage _ _ _ Hal). done.
  - intros pk i i' s ss ss' Hi Hi' Hs Hs'. rewrite (D6 _ _ _ _ Hi Hs), (D6' _ _ _ _ Hi' Hs'). apply or_iff_compat_r. split.
    + intros [Hp (t & Ht & Hin)]. destruct (st_index st' !! pk) as [j'|] eqn:Hj'; [|apply (alike_index _ _ _ _ Hok Hok' Hal) in Hj'; congruence].
      assert (j' = i') as -> by (by eapply D3'). split; [done|]. pose proof (al_stage _ _ _ Hal s) as Hst. rewrite Ht in Hst. destruct (st_slots st' !! s) as [t'|] eqn:Ht'; [|done].
      exists t'. split; [done|]. by apply (al_wrote _ _ _ Hal pk i i' s t t').
    + intros [Hp (t & Ht & Hin)]. destruct (st_index st !! pk) as [j'|] eqn:Hj'; [|apply (alike_index _ _ _ _ Hok Hok' Hal) in Hj'; congruence].
      assert (j' = i) as -> by (by eapply D3). split; [done|]. pose proof (al_stage _ _ _ Hal s) as Hst. rewrite Ht in Hst. destruct (st_slots st !! s) as [t'|] eqn:Ht'; [|done].
      exists t'. split; [done|]. by apply (al_wrote _ _ _ Hal pk i i' s t' t).
  - intros Hq p pk i i' Hi Hi'. rewrite (D7 _ _ _ Hi), (D7' _ _ _ Hi'). destruct (decide (pk = d_pubkey a)) as [->|Hne].
    + rewrite Hent, Heff. destruct (entry_of st' (d_pubkey a)) as [b|]; [|done]. apply owned_after_iff. split.
      * intros (j & Hj & Hin). destruct (st_index st' !! d_pubkey a) as [j'|] eqn:Hj'; [|apply (alike_index _ _ _ _ Hok Hok' Hal) in Hj'; congruence].
        exists j'. split; [done|]. by apply (al_listed _ _ _ Hal Hq p _ j j' Hj Hj').
      * intros (j & Hj & Hin). destruct (st_index st !! d_pubkey a) as [j'|] eqn:Hj'; [|apply (alike_index _ _ _ _ Hok Hok' Hal) in Hj'; congruence].
        exists j'. split; [done|]. by apply (al_listed _ _ _ Hal Hq p _ j' j Hj' Hj).
    + destruct (D1 _ Hne) as [Hix _]. destruct (D1' _ Hne) as [Hix' _]. rewrite Hix in Hi. rewrite Hix' in Hi'. by apply (al_listed _ _ _ Hal Hq p pk).
Qed.

(** ** Slots *)
Section walk.
Context (ix ix' : gmap pubkey nat).
Definition sl_like (sl sl' : gmap N status) : Prop :=
  (forall s, stage <$> sl !! s = stage <$> sl' !! s) /\
  (forall pk i i' s ss ss', ix !! pk = Some i -> ix' !! pk = Some i' -> sl !! s = Some ss -> sl' !! s = Some ss' -> (i ∈ ss_accounts ss <-> i' ∈ ss_accounts ss')).
Definition wa_like (wa wa' : gmap nat N) : Prop := forall pk i i', ix !! pk = Some i -> ix' !! pk = Some i' -> wa !! i = wa' !! i'.
Lemma sl_like_insert sl sl' s x x' : sl_like sl sl' -> stage x = stage x' ->
  (forall pk i i', ix !! pk = Some i -> ix' !! pk = Some i' -> (i ∈ ss_accounts x <-> i' ∈ ss_accounts x')) -> sl_like (<[s := x]> sl) (<[s := x']> sl').
Proof.
  intros [H1 H2] Hx Hm. split.
  - intros t. destruct (decide (t = s)) as [->|Hn]; [rewrite !lookup_insert; simpl; by rewrite Hx|by rewrite !lookup_insert_ne].
  - intros pk i i' t ss ss' Hi Hi'. destruct (decide (t = s)) as [->|Hn].
    + rewrite !lookup_insert. intros [= <-] [= <-]. exact (Hm pk i i' Hi Hi').
    + rewrite !lookup_insert_ne by done. exact (H2 pk i i' t ss ss' Hi Hi').
Qed.
Lemma walk_like fuel c ip : forall sl sl' wa wa' s par r, sl_like sl sl' -> wa_like wa wa' -> slot_walk fuel sl wa s par ip c = Some r ->
  exists r', slot_walk fuel sl' wa' s par ip c = Some r' /\ sl_like r.1 r'.1 /\ wa_like r.2 r'.2.
Proof.
  induction fuel as [|fuel IH]; intros sl sl' wa wa' s par r Hsl Hwa; simpl; [done|].
  pose proof (proj1 Hsl s) as Hst. destruct (sl !! s) as [ss|] eqn:Hs; destruct (sl' !! s) as [ss'|] eqn:Hs'; simpl in Hst; try done.
  - injection Hst as Hc Hp. rewrite <- Hc, <- Hp. destruct (bool_decide (ss_commit ss = c)).
    { intros [= <-]. eexists. split; [reflexivity|]. done. }
    set (parent := match par with Some _ => par | None => ss_parent ss end).
    assert (sl_like (<[s := Status c (ss_accounts ss) parent]> sl) (<[s := Status c (ss_accounts ss') parent]> sl')) as H1.
    { apply sl_like_insert; [done|done|]. intros pk i i' Hi Hi'. simpl. exact (proj2 Hsl pk i i' s ss ss' Hi Hi' Hs Hs'). }
    assert (wa_like (wa ∪ gset_to_gmap s (ss_accounts ss)) (wa' ∪ gset_to_gmap s (ss_accounts ss'))) as H2.
    { intros pk i i' Hi Hi'. apply option_eq. intros t. rewrite !lookup_union. rewrite (Hwa pk i i' Hi Hi').
      destruct (wa' !! i') as [y|]; [by destruct (gset_to_gmap s (ss_accounts ss) !! i), (gset_to_gmap s (ss_accounts ss') !! i')|].
      rewrite !(left_id_L None _). rewrite !lookup_gset_to_gmap_Some. by rewrite (proj2 Hsl pk i i' s ss ss' Hi Hi' Hs Hs'). }
    destruct c.
    + intros [= <-]. eexists. split; [reflexivity|]. done.
    + destruct parent as [p|]; [by apply IH|]. intros [= <-]. eexists. split; [reflexivity|]. done.
    + destruct parent as [p|]; [by apply IH|]. intros [= <-]. eexists. split; [reflexivity|]. done.
  - assert (sl_like (<[s := Status c ∅ (Some ip)]> sl) (<[s := Status c ∅ (Some ip)]> sl')) as H1 by (apply sl_like_insert; [done|done|]; intros; simpl; set_solver).
    destruct c; intros [= <-]; eexists; (split; [reflexivity|]); done.
Qed.
Lemma sl_like_size sl sl' : sl_like sl sl' -> size sl = size sl'.
Proof.
  intros [H _]. rewrite <- !(size_dom (D := gset N)). f_equal. apply set_eq. intros s. rewrite !elem_of_dom. specialize (H s).
  destruct (sl !! s), (sl' !! s); simpl in H; try done; by rewrite !is_Some_alt.
Qed.
Lemma phase_like sl sl' si c r r' : sl_like sl sl' -> slot_phase sl si c = Some r -> slot_phase sl' si c = Some r' -> sl_like r.1 r'.1 /\ wa_like r.2 r'.2.
Proof.
  intros Hsl. unfold slot_phase. rewrite <- (sl_like_size _ _ Hsl).
  destruct (slot_walk _ sl _ _ _ _ _) as [w|] eqn:Hw; [|done].
  destruct (walk_like _ _ _ sl sl' ∅ ∅ _ _ w Hsl ltac:(intros ?????; by rewrite !lookup_empty) Hw) as (w' & -> & H1 & H2).
  destruct w as [s1 w1], w' as [s1' w1']. simpl in *. intros [= <-] [= <-]. simpl. split; [|done]. destruct c; [done|done|].
  unfold prune_slots. destruct H1 as [Ha Hb]. split.
  - intros s. specialize (Ha s). rewrite !map_filter_lookup. destruct (s1 !! s) as [x|], (s1' !! s) as [x'|]; simpl in *; try done. case_option_guard; done.
  - intros pk i i' s ss ss' Hi Hi' (Hs & _)%map_filter_lookup_Some (Hs' & _)%map_filter_lookup_Some. exact (Hb pk i i' s ss ss' Hi Hi' Hs Hs').
Qed.
End walk.

Lemma slot_alike q F st st' si c s1 s1' l l' : st_ok st -> st_ok st' -> alike q st st' ->
  process_slot F st si c = Done (s1, l) -> process_slot F st' si c = Done (s1', l') -> alike q s1 s1' /\ Permutation l l'.
Proof.
  intros Hok Hok' Hal H H'.
  destruct (process_slot_spec F st si c Hok) as (x & sl & wa & Hx & Hph & Hsl & Hse). rewrite Hx in H. injection H as -> <-.
  destruct (process_slot_spec F st' si c Hok') as (x & sl' & wa' & Hx' & Hph' & Hsl' & Hse'). rewrite Hx' in H'. injection H' as -> <-.
  destruct (phase_like (st_index st) (st_index st') (st_slots st) (st_slots st') si c (sl, wa) (sl', wa')) as [Hlk Hwa]; [|done|done|].
  { split; [apply (al_stage _ _ _ Hal)|apply (al_wrote _ _ _ Hal)]. }
  simpl in Hlk, Hwa.
  assert (forall pk i, st_index st !! pk = Some i -> exists i' b, st_index st' !! pk = Some i' /\ st_accounts st !! i = Some b /\ st_accounts st' !! i' = Some b /\ wa !! i = wa' !! i') as Hboth.
  { intros pk i Hi. destruct (so_entry _ _ _ Hok Hi) as (b & Hb & _). pose proof (al_entry _ _ _ Hal pk) as He. unfold entry_of in He. rewrite Hi in He. simpl in He. rewrite Hb in He.
    destruct (st_index st' !! pk) as [i'|] eqn:Hi'; [|done]. simpl in He. exists i', b. split_and!; [done|done|done|by eapply Hwa]. }
  split.
  - constructor.
    + intros pk. unfold entry_of. destruct (st_index st !! pk) as [i|] eqn:Hi.
      2:{ rewrite (se_none _ _ _ _ _ _ Hse _ Hi). apply (alike_index _ _ _ _ Hok Hok' Hal) in Hi. by rewrite (se_none _ _ _ _ _ _ Hse' _ Hi). }
      destruct (Hboth pk i Hi) as (i' & b & Hi' & Hb & Hb' & Hw). destruct (wa !! i) as [s|] eqn:Hwi.
      * destruct (prom_after F b s c) as [[b1 del] rep] eqn:Hp. destruct (se_entry _ _ _ _ _ _ Hse _ _ _ _ _ _ Hwi Hb Hp) as (E1 & E2 & _).
        destruct (se_entry _ _ _ _ _ _ Hse' _ _ _ _ _ _ (eq_sym Hw) Hb' Hp) as (E1' & E2' & _). rewrite (E2 _ Hi), (E2' _ Hi'). destruct del; simpl; [done|]. congruence.
      * rewrite (se_index _ _ _ _ _ _ Hse _ _ Hi Hwi), (se_index _ _ _ _ _ _ Hse' _ _ Hi' (eq_sym Hw)). simpl.
        rewrite (se_same _ _ _ _ _ _ Hse _ Hwi), (se_same _ _ _ _ _ _ Hse' _ (eq_sym Hw)). congruence.
    + intros s. rewrite Hsl, Hsl'. apply (proj1 Hlk).
    + intros pk i i' s ss ss' Hi Hi' Hs Hs'. rewrite Hsl in Hs. rewrite Hsl' in Hs'.
      apply (index_back _ _ _ _ _ _ _ _ Hok Hse) in Hi. apply (index_back _ _ _ _ _ _ _ _ Hok' Hse') in Hi'. exact (proj2 Hlk pk i i' s ss ss' Hi Hi' Hs Hs').
    + intros Hq p pk i i' Hi Hi'. apply (index_back _ _ _ _ _ _ _ _ Hok Hse) in Hi. apply (index_back _ _ _ _ _ _ _ _ Hok' Hse') in Hi'.
      destruct (Hboth pk i Hi) as (j & b & Hj & Hb & Hb' & Hw). assert (j = i') as -> by congruence. pose proof (al_listed _ _ _ Hal Hq p pk i i' Hi Hi') as Hli.
      destruct (wa !! i) as [s|] eqn:Hwi.
      * destruct (prom_after F b s c) as [[b1 del] rep] eqn:Hp. destruct (se_entry _ _ _ _ _ _ Hse _ _ _ _ _ _ Hwi Hb Hp) as (_ & _ & ->).
        destruct (se_entry _ _ _ _ _ _ Hse' _ _ _ _ _ _ (eq_sym Hw) Hb' Hp) as (_ & _ & ->). unfold own_after. destruct (bc_promote b s c).2 as [[a [prev|]]|]; [|done|done]. by rewrite Hli.
      * rewrite (se_own _ _ _ _ _ _ Hse p i Hwi), (se_own _ _ _ _ _ _ Hse' p i' (eq_sym Hw)). done.
  - apply NoDup_Permutation.
    + eapply NoDup_fmap_1. apply (reports_nodup F st c (map_to_list wa) Hok), NoDup_fst_map_to_list.
    + eapply NoDup_fmap_1. apply (reports_nodup F st' c (map_to_list wa') Hok'), NoDup_fst_map_to_list.
    + intros a. rewrite !reports_in. split.
      * intros (i & s & b & Hin & Hb & Hr). destruct (report_entry _ _ _ _ _ _ _ Hok Hb Hr) as (Hi & _). apply elem_of_map_to_list in Hin.
        destruct (Hboth _ _ Hi) as (i' & b0 & Hi' & Hb0 & Hb' & Hw). assert (b0 = b) as -> by congruence. exists i', s, b. split; [|done]. apply elem_of_map_to_list. congruence.
      * intros (i' & s & b & Hin & Hb & Hr). destruct (report_entry _ _ _ _ _ _ _ Hok' Hb Hr) as (Hi' & _). apply elem_of_map_to_list in Hin.
        destruct (st_index st !! d_pubkey a) as [i|] eqn:Hi; [|apply (alike_index _ _ _ _ Hok Hok' Hal) in Hi; congruence].
        destruct (Hboth _ _ Hi) as (j & b0 & Hj & Hb0 & Hb' & Hw). assert (j = i') as -> by congruence. assert (b0 = b) as -> by congruence.
        exists i, s, b. split; [|done]. apply elem_of_map_to_list. congruence.
Qed.

(** ** Queries *)
Lemma gpa_loop_total E accs c p fl idx : (forall i, i ∈ idx -> exists b l, accs !! i = Some b /\ gpa_entry E b c p fl = Done l) -> exists l, gpa_loop E accs c p fl idx = Done l.
Proof.
  induction idx as [|i idx IH]; intros H; simpl; [eauto|]. destruct (H i) as (b & l & -> & Hl); [left|]. simpl. rewrite Hl. simpl.
  destruct IH as [ls ->]; [intros j Hj; apply H; by right|]. simpl. eauto.
Qed.
Lemma gpa_entry_empty E c p fl : gpa_entry E bc_empty c p fl = Done [].
Proof. destruct fl, c; done. Qed.
(** Each listed index is tracked or holds the empty entry. *)
Lemma listed_cases st p i : st_ok st -> i ∈ own (st_owners st) p ->
  (exists pk, st_index st !! pk = Some i) \/ ((forall pk, st_index st !! pk <> Some i) /\ st_accounts st !! i = Some bc_empty).
Proof.
  intros Hok Hin. destruct (decide (map_Exists (fun _ j => j = i) (st_index st))) as [(pk & ? & Hpk & ->)|Hno]; [left; eauto|]. right.
  assert (forall pk, st_index st !! pk <> Some i) as Hn by (intros pk Hpk; apply Hno; exists pk, i; done). split; [done|].
  unfold own in Hin. destruct (st_owners st !! p) as [x|] eqn:Hx; simpl in Hin; [|set_solver].
  destruct (lookup_lt_is_Some_2 (st_accounts st) i (so_owners _ Hok _ _ _ Hx Hin)) as [b Hb]. rewrite Hb. f_equal. by eapply so_orphan.
Qed.
Lemma alike_listed st st' p pk i : st_ok st -> st_ok st' -> alike true st st' -> st_index st !! pk = Some i -> i ∈ own (st_owners st) p ->
  exists i', st_index st' !! pk = Some i' /\ i' ∈ own (st_owners st') p /\ st_accounts st !! i = st_accounts st' !! i'.
Proof.
  intros Hok Hok' Hal Hi Hin. destruct (st_index st' !! pk) as [i'|] eqn:Hi'; [|apply (alike_index _ _ _ _ Hok Hok' Hal) in Hi'; congruence].
  exists i'. split; [done|]. split; [by apply (al_listed _ _ _ Hal eq_refl p pk i i')|]. pose proof (al_entry _ _ _ Hal pk) as He. unfold entry_of in He. by rewrite Hi, Hi' in He.
Qed.
Lemma gpa_total E F st p fl c : (forall i, i ∈ own (st_owners st) p -> exists b l, st_accounts st !! i = Some b /\ gpa_entry E b c p fl = Done l) ->
  exists r, get_program_accounts E F st p fl c = Done r.
Proof.
  intros H. unfold get_program_accounts. destruct (fl_contains _ _); [|eauto]. destruct (st_owners st !! p) as [x|] eqn:Hx; [|eauto].
  destruct (gpa_loop_total E (st_accounts st) c p fl (elements x)) as [l ->]; [|simpl; eauto]. intros i Hi. apply H. unfold own. rewrite Hx. simpl. by apply elem_of_elements.
Qed.
Lemma gpa_alike_done E F st st' p fl c r : st_ok st -> st_ok st' -> alike true st st' -> get_program_accounts E F st p fl c = Done r ->
  exists r', get_program_accounts E F st' p fl c = Done r' /\ same_told (RGpa r) (RGpa r').
Proof.
  intros Hok Hok' Hal H. pose proof (alike_sym _ _ _ Hal) as Hal'. destruct r as [l|e].
  - pose proof (gpa_nodup _ _ _ _ _ _ _ Hok H) as Hnd. pose proof (gpa_inv _ _ _ _ _ _ _ H) as (Hc & Hin & Hall).
    destruct (gpa_total E F st' p fl c) as [r' Hr'].
    { intros i' Hi'. destruct (listed_cases _ _ _ Hok' Hi') as [[pk Hpk]|[_ He]]; [|exists bc_empty, []; split; [done|apply gpa_entry_empty]].
      destruct (alike_listed _ _ _ _ _ Hok' Hok Hal' Hpk Hi') as (i & Hi & Hin0 & Heq). destruct (Hall i Hin0) as (b & l0 & Hb & Hl0). exists b, l0. split; [congruence|done]. }
    exists r'. split; [done|]. destruct r' as [l'|e].
    2:{ unfold get_program_accounts in Hr'. rewrite Hc in Hr'. destruct (st_owners st' !! p); [|done]. by destruct (gpa_loop _ _ _ _ _ _). }
    pose proof (gpa_nodup _ _ _ _ _ _ _ Hok' Hr') as Hnd'. pose proof (gpa_inv _ _ _ _ _ _ _ Hr') as (_ & Hin' & _). simpl.
    apply NoDup_Permutation; [by eapply NoDup_fmap_1|by eapply NoDup_fmap_1|]. intros a. rewrite Hin, Hin'. split.
    + intros (i & b & l0 & Hi & Hb & Hl0 & Ha). destruct (listed_cases _ _ _ Hok Hi) as [[pk Hpk]|[_ He]].
      * destruct (alike_listed _ _ _ _ _ Hok Hok' Hal Hpk Hi) as (i' & _ & Hi' & Heq). exists i', b, l0. split_and!; [done|congruence|done|done].
      * assert (b = bc_empty) as -> by congruence. rewrite gpa_entry_empty in Hl0. injection Hl0 as <-. by apply elem_of_nil in Ha.
    + intros (i & b & l0 & Hi & Hb & Hl0 & Ha). destruct (listed_cases _ _ _ Hok' Hi) as [[pk Hpk]|[_ He]].
      * destruct (alike_listed _ _ _ _ _ Hok' Hok Hal' Hpk Hi) as (i' & _ & Hi' & Heq). exists i', b, l0. split_and!; [done|congruence|done|done].
      * assert (b = bc_empty) as -> by congruence. rewrite gpa_entry_empty in Hl0. injection Hl0 as <-. by apply elem_of_nil in Ha.
  - assert (forall x, get_program_accounts E F x p fl c = Done (RErr e) \/ fl_contains F (AFilter [] (Some p) fl) = true) as Hx.
    { intros x. destruct (fl_contains F _) eqn:Hc; [by right|]. left. unfold get_program_accounts in *. rewrite Hc in *. done. }
    destruct (Hx st') as [->|Hc]; [eexists; split; [reflexivity|done]|]. exfalso. unfold get_program_accounts in H. rewrite Hc in H.
    destruct (st_owners st !! p); [|done]. by destruct (gpa_loop _ _ _ _ _ _).
Qed.
Lemma load_alike q F l : forall st st' s1 s1', st_ok st -> st_ok st' -> alike q st st' -> load_accounts F st l = Done s1 -> load_accounts F st' l = Done s1' -> alike q s1 s1'.
Proof.
  induction l as [|a l IH]; intros st st' s1 s1' Hok Hok' Hal; simpl.
  - intros [= <-] [= <-]. done.
  - unfold init_account. destruct (update_account F st a Finalized) as [[x r]|] eqn:Hu; [|done]. destruct (update_account F st' a Finalized) as [[x' r']|] eqn:Hu'; [|done]. simpl.
    apply IH; [exact (update_ok _ _ _ _ _ _ Hok Hu)|exact (update_ok _ _ _ _ _ _ Hok' Hu')|]. exact (proj1 (update_alike _ _ _ _ _ _ _ _ _ _ Hok Hok' Hal Hu Hu')).
Qed.
Lemma get_alike q st st' pk c : alike q st st' -> st_ok st -> st_ok st' -> get_account st pk c = get_account st' pk c.
Proof.
  intros Hal Hok Hok'. pose proof (al_entry _ _ _ Hal pk) as He. unfold get_account, entry_of in *.
  destruct (st_index st !! pk) as [i|] eqn:Hi; [destruct (so_entry _ _ _ Hok Hi) as (b & Hb & _)|]; (destruct (st_index st' !! pk) as [i'|] eqn:Hi'; [destruct (so_entry _ _ _ Hok' Hi') as (b' & Hb' & _)|]);
    simpl in *; rewrite ?Hb, ?Hb' in *; simplify_eq; done.
Qed.
Definition both (q : bool) (r r' : res (store * outcome)) : Prop :=
  match r, r' with
  | Done (s, x), Done (s', x') => alike q s s' /\ same_told x x'
  | Panic, Panic => True
  | _, _ => False
  end.
Lemma step_alike q E F st st' o : st_ok st -> st_ok st' -> alike q st st' -> (lists o -> q = true) -> both q (step E F st o) (step E F st' o).
Proof.
  intros Hok Hok' Hal Hq. destruct o as [a c|a|pk c|p fl c|si c|p|p b]; simpl.
  - destruct (update_account_cases F st a c Hok) as (s1 & r & Hu & _). destruct (update_account_cases F st' a c Hok') as (s1' & r' & Hu' & _).
    rewrite Hu, Hu'. simpl. destruct (update_alike _ _ _ _ _ _ _ _ _ _ Hok Hok' Hal Hu Hu') as [? ->]. done.
  - unfold init_account. destruct (update_account_cases F st a Finalized Hok) as (s1 & r & Hu & _). destruct (update_account_cases F st' a Finalized Hok') as (s1' & r' & Hu' & _).
    rewrite Hu, Hu'. simpl. destruct (update_alike _ _ _ _ _ _ _ _ _ _ Hok Hok' Hal Hu Hu') as [? ->]. done.
  - rewrite (get_alike _ _ _ pk c Hal Hok Hok'). destruct (get_account st' pk c); done.
  - rewrite (Hq I) in *. destruct (get_program_accounts E F st p fl c) as [r|] eqn:Hr; simpl.
    + destruct (gpa_alike_done _ _ _ _ _ _ _ _ Hok Hok' Hal Hr) as (r' & -> & Hs). simpl. done.
    + destruct (get_program_accounts E F st' p fl c) as [r'|] eqn:Hr'; simpl; [|done].
      destruct (gpa_alike_done _ _ _ _ _ _ _ _ Hok' Hok (alike_sym _ _ _ Hal) Hr') as (x & Hx & _). congruence.
  - destruct (process_slot_spec F st si c Hok) as (s1 & sl & wa & Hu & _). destruct (process_slot_spec F st' si c Hok') as (s1' & sl' & wa' & Hu' & _).
    pose proof (slot_alike _ _ _ _ _ _ _ _ _ _ Hok Hok' Hal Hu Hu') as H. rewrite Hu, Hu'. exact H.
  - rewrite (Hq I) in *. unfold create_snapshot. destruct (get_program_accounts E F st p None Finalized) as [r|] eqn:Hr; simpl.
    + destruct (gpa_alike_done _ _ _ _ _ _ _ _ Hok Hok' Hal Hr) as (r' & -> & Hs). simpl. split; [done|]. destruct r as [l|e], r' as [l'|e']; simpl in Hs; try done; [by exists l, l'|]. congruence.
    + destruct (get_program_accounts E F st' p None Finalized) as [r'|] eqn:Hr'; simpl; [|done].
      destruct (gpa_alike_done _ _ _ _ _ _ _ _ Hok' Hok (alike_sym _ _ _ Hal) Hr') as (x & Hx & _). congruence.
  - unfold load_from_snapshot. destruct (unbincode_accounts b) as [l|]; simpl; [|done].
    destruct (load_accounts_ok F st l Hok) as (s1 & H1 & _). destruct (load_accounts_ok F st' l Hok') as (s1' & H1' & _).
    pose proof (load_alike _ _ _ _ _ _ _ Hok Hok' Hal H1 H1'). rewrite H1, H1'. done.
Qed.
Lemma alike_indistinct q E h : forall st st', st_ok st -> st_ok st' -> alike q st st' -> (forall F o, (F, o) ∈ h -> lists o -> q = true) -> indistinct E st st' h.
Proof.
  unfold indistinct. induction h as [|[F o] h IH]; intros st st' Hok Hok' Hal Hq; simpl; [constructor|].
  pose proof (step_alike q E F st st' o Hok Hok' Hal ltac:(intros Hl; by apply (Hq F o); [left|])) as Hb.
  destruct (step E F st o) as [[s1 r]|] eqn:Hs; destruct (step E F st' o) as [[s1' r']|] eqn:Hs'; simpl in *; try done. destruct Hb as [Hal1 Hr].
  pose proof (step_ok _ _ _ _ _ _ Hok Hs) as Ho1. pose proof (step_ok _ _ _ _ _ _ Hok' Hs') as Ho1'.
  specialize (IH s1 s1' Ho1 Ho1' Hal1 ltac:(intros; eapply Hq; [right; done|done])).
  destruct (told E s1 h), (told E s1' h); simpl; try done. by constructor.
Qed.

(** ** Two updates in either order *)
Lemma upd_get b z k : sm_get k (upd_proc b z) = if k =? d_slot z then
  match sm_get k (bc_proc b) with Some p => if d_wv p <? d_wv z then Some z else Some p | None => Some z end else sm_get k (bc_proc b).
Proof.
  destruct (N.eqb_spec k (d_slot z)) as [->|Hn]; [|by apply upd_proc_get_ne]. unfold upd_proc.
  destruct (sm_get (d_slot z) (bc_proc b)) as [p|] eqn:Hp; [|by rewrite sm_get_put]. destruct (d_wv p <? d_wv z); [by rewrite sm_get_put|done].
Qed.
Lemma newer_swap (o : option acct) (x y : acct) : (d_slot x = d_slot y -> d_wv x = d_wv y -> x = y) ->
  (let o' := if newer o x then Some x else o in if newer o' y then Some y else o') = (let o' := if newer o y then Some y else o in if newer o' x then Some x else o').
Proof.
  intros Hxy. cbv zeta. unfold newer. destruct o as [z|]; repeat (case_match; simplify_eq); try done;
    repeat match goal with
    | H : _ || _ = true |- _ => apply orb_true_iff in H as [H|H]
    | H : _ || _ = false |- _ => apply orb_false_iff in H as [? ?]
    | H : _ && _ = true |- _ => apply andb_true_iff in H as [? ?]
    | H : _ && _ = false |- _ => apply andb_false_iff in H as [H|H]
    end; rewrite ?N.ltb_lt, ?N.ltb_ge, ?N.eqb_eq, ?N.eqb_neq in *; try lia; try done; try (rewrite Hxy; [done|lia|lia]).
Qed.
Lemma update_swap c (b : bycom) (x y : acct) : bc_ok b -> (d_slot x = d_slot y -> d_wv x = d_wv y -> x = y) ->
  (bc_update (bc_update b x c).1 y c).1 = (bc_update (bc_update b y c).1 x c).1.
Proof.
  intros Hb Hxy. pose proof (bc_ok_update b x c Hb) as Hbx. pose proof (bc_ok_update b y c Hb) as Hby. rewrite !bc_update_unfold in *. cbn [fst] in *. f_equal.
  - apply sm_ext; [by apply upd_proc_sorted|by apply upd_proc_sorted|]. intros k.
    rewrite !upd_get. simpl. rewrite !upd_get. destruct (N.eqb_spec k (d_slot x)) as [->|Hx].
    + destruct (N.eqb_spec (d_slot x) (d_slot y)) as [He|Hn]; [|done].
      destruct (sm_get (d_slot x) (bc_proc b)) as [p|]; repeat (case_match; simplify_eq); rewrite ?N.ltb_lt, ?N.ltb_ge in *; try done; try lia;
        (rewrite Hxy; [done|done|lia]) || (rewrite <- Hxy; [done|done|lia]).
    + destruct (N.eqb_spec k (d_slot y)) as [->|Hy]; done.
  - unfold upd_conf. cbn [bc_conf]. destruct c; [done| |]; exact (newer_swap (bc_conf b) x y Hxy).
  - unfold upd_fin. cbn [bc_fin]. destruct c; [done|done|]. exact (newer_swap (bc_fin b) x y Hxy).
Qed.
Lemma newest_after c b a x : bc_ok b -> bc_proc b <> [] -> bc_get (bc_update b a c).1 c = Some x -> x = a \/ bc_get b c = Some x.
Proof.
  intros Hb Hne. rewrite bc_update_unfold. destruct c; cbn [fst bc_get bc_proc bc_conf bc_fin upd_conf upd_fin].
  2: { destruct (newer (bc_conf b) a); [intros [= <-]; by left|by right]. }
  2: { destruct (newer (bc_fin b) a); [intros [= <-]; by left|by right]. }
  destruct (upd_proc_last' b a Hb) as (k & p & Hl & _). rewrite Hl. intros [= ->].
  apply sm_last_spec in Hl as [Hg Hmax]; [|by apply upd_proc_sorted]. destruct (decide (x = a)) as [->|Hxa]; [by left|]. right.
  assert (sm_get k (bc_proc b) = Some x) as Hg0.
  { rewrite upd_get in Hg. destruct (k =? d_slot a); [|done]. destruct (sm_get k (bc_proc b)) as [y|]; [|congruence]. destruct (d_wv y <? d_wv a); congruence. }
  assert (last (bc_proc b) = Some (k, x)) as ->; [|done]. apply sm_last_spec; [by apply ok_sorted|]. split; [done|]. intros k' v' Hk'.
  destruct (upd_proc_mono b a k' v' Hb Hk') as (p' & Hp' & _). by eapply Hmax.
Qed.

Section heard.
Context (c : commitment) (st : store) (u : filt * acct) (s1 : store) (r : bool)
  (Hc : c <> Finalized) (Hok : st_ok st) (Hh : heard c st u) (Hu : update_account u.1 st u.2 c = Done (s1, r)).
Let pk := d_pubkey u.2.
Lemma heard_effective : effective st u.2 c = c.
Proof. destruct Hh as [_ H]. unfold effective, slot_commit in *. destruct c; [| |done]; (destruct (st_slots st !! d_slot u.2) as [ss|]; [|done]; by apply H). Qed.
Lemma heard_entry q : entry_of s1 q = if decide (q = pk) then Some (bc_update (default bc_empty (entry_of st q)) u.2 c).1 else entry_of st q.
Proof.
  destruct (delivery _ _ _ _ _ _ Hok Hu) as [D1 D2 _ _ _ _ _]. destruct (decide (q = pk)) as [->|Hne]; [|by destruct (D1 _ Hne) as [_ ->]].
  unfold pk. rewrite D2, heard_effective. destruct (entry_of st (d_pubkey u.2)) as [b|] eqn:He.
  - unfold dropped_by. destruct ((bc_update b u.2 c).2 && _) eqn:Hd; [|done]. apply andb_true_iff in Hd as [_ Hd]. destruct (bc_get b c); [|done]. apply drops_true in Hd as [? _]. done.
  - destruct Hh as [[[i Hi]|Hs] _]; [apply entry_none in He; [congruence|done]|]. rewrite Hs. by rewrite bc_new_update.
Qed.
Lemma heard_index q i : st_index st !! q = Some i -> st_index s1 !! q = Some i.
Proof.
  intros Hi. pose proof (update_ok _ _ _ _ _ _ Hok Hu) as Ho1. destruct (delivery _ _ _ _ _ _ Hok Hu) as [_ _ D3 _ _ _ _].
  destruct (st_index s1 !! q) as [j|] eqn:Hj; [f_equal; symmetry; by eapply D3|]. exfalso. apply entry_none in Hj; [|done]. rewrite heard_entry in Hj.
  destruct (decide (q = pk)); [done|]. apply entry_none in Hj; [congruence|done].
Qed.
Lemma heard_tracked : exists i, st_index s1 !! pk = Some i.
Proof.
  pose proof (update_ok _ _ _ _ _ _ Hok Hu) as Ho1. destruct (st_index s1 !! pk) as [j|] eqn:Hj; [eauto|]. exfalso. apply entry_none in Hj; [|done].
  rewrite heard_entry in Hj. by rewrite decide_True in Hj.
Qed.
Lemma heard_stage s : stage <$> st_slots s1 !! s = if decide (s = d_slot u.2) then Some (default (c, None) (stage <$> st_slots st !! s)) else stage <$> st_slots st !! s.
Proof.
  destruct (delivery _ _ _ _ _ _ Hok Hu) as [_ _ _ _ D5 _ _]. rewrite D5. destruct (decide (s = d_slot u.2)) as [->|Hn].
  - rewrite decide_True; [done|]. split; [done|]. intros [He Hs]. destruct Hh as [[[i Hi]|Hs'] _]; [apply entry_none in He; [congruence|done]|congruence].
  - rewrite decide_False; [done|]. by intros [? _].
Qed.
Lemma heard_wrote s q : wrote s1 s q <-> wrote st s q \/ (q = pk /\ s = d_slot u.2).
Proof.
  destruct (delivery _ _ _ _ _ _ Hok Hu) as [_ _ _ _ _ D6 _]. pose proof (heard_stage s) as Hst. split.
  - intros (i & ss & Hi & Hs & Hin). apply (D6 _ _ _ _ Hi Hs) in Hin as [[Hi0 (ss0 & Hs0 & Hin)]|(-> & -> & _)]; [left|by right]. by exists i, ss0.
  - intros [(i & ss & Hi & Hs & Hin)|[-> ->]].
    + rewrite Hs in Hst. destruct (st_slots s1 !! s) as [ss1|] eqn:Hs1; [|by destruct (decide _)]. apply heard_index in Hi as Hi1. exists i, ss1. split_and!; [done|done|].
      apply (D6 _ _ _ _ Hi1 Hs1). left. eauto.
    + rewrite decide_True in Hst by done. destruct (st_slots s1 !! d_slot u.2) as [ss1|] eqn:Hs1; [|done]. destruct heard_tracked as [i Hi]. exists i, ss1. split_and!; [done|done|].
      apply (D6 _ _ _ _ Hi Hs1). by right.
Qed.
Definition listed (st : store) (p q : pubkey) : Prop := exists i, st_index st !! q = Some i /\ i ∈ own (st_owners st) p.
Lemma heard_listed p q : (forall x, version_at st pk c = Some x -> d_owner x = d_owner u.2) ->
  listed s1 p q <-> listed st p q \/ (q = pk /\ entry_of st q = None /\ p = d_owner u.2).
Proof.
  intros Hone. destruct (delivery _ _ _ _ _ _ Hok Hu) as [D1 _ _ _ _ _ D7]. destruct (decide (q = pk)) as [->|Hne].
  - destruct heard_tracked as [i Hi]. pose proof (D7 _ _ p Hi) as Hl. rewrite decide_True in Hl by done.
    assert (listed s1 p pk <-> i ∈ own (st_owners s1) p) as -> by (unfold listed; rewrite Hi; naive_solver). rewrite Hl. destruct (entry_of st pk) as [b|] eqn:He.
    + assert (owned_after u.1 b u.2 (effective st u.2 c) p (listed st p pk) <-> listed st p pk) as Hoa.
      { unfold owned_after. rewrite heard_effective. destruct (bc_get b c) as [prev|] eqn:Hg; [|done]. destruct (bc_update b u.2 c).2; [|done].
        assert (d_owner prev = d_owner u.2) as Ho.
        { apply Hone. unfold version_at. apply entry_some in He as (j & Hj & Hb). rewrite Hj. simpl. rewrite Hb. done. }
        rewrite Ho. naive_solver. }
      unfold listed at 1 in Hoa. rewrite Hoa. naive_solver.
    + apply entry_none in He; [|done]. unfold listed. rewrite He. naive_solver.
  - destruct (D1 _ Hne) as [Hix _]. unfold listed. rewrite Hix. split.
    + intros (i & Hi & Hin). left. exists i. split; [done|]. rewrite <- Hix in Hi. pose proof (D7 _ _ p Hi) as Hl. rewrite decide_False in Hl by done. by apply Hl.
    + intros [(i & Hi & Hin)|[? _]]; [|done]. exists i. split; [done|]. rewrite <- Hix in Hi. pose proof (D7 _ _ p Hi) as Hl. rewrite decide_False in Hl by done. by apply Hl.
Qed.
Lemma heard_again v : heard c st v -> heard c s1 v.
Proof.
  intros [H1 H2]. split.
  - destruct H1 as [[i Hi]|Hs]; [left|by right]. exists i. by apply heard_index.
  - intros k. pose proof (heard_stage (d_slot v.2)) as Hst. unfold slot_commit in *. destruct (st_slots s1 !! d_slot v.2) as [ss|] eqn:Hs; [|done]. simpl in *. intros [= <-].
    destruct (st_slots st !! d_slot v.2) as [ss0|] eqn:Hs0; simpl in *.
    + assert (stage ss = stage ss0) as He by (destruct (decide _); congruence). injection He as -> _. by apply H2.
    + destruct (decide _); [|done]. injection Hst as -> _. done.
Qed.
Lemma heard_owner v : d_owner v = d_owner u.2 \/ d_pubkey v <> pk -> (forall x, version_at st (d_pubkey v) c = Some x -> d_owner x = d_owner v) ->
  forall x, version_at s1 (d_pubkey v) c = Some x -> d_owner x = d_owner v.
Proof.
  intros Hv Hone x. assert (forall s q, version_at s q c = (b ← entry_of s q; bc_get b c)) as Hva.
  { intros s q. unfold version_at, entry_of. by destruct (st_index s !! q). }
  rewrite Hva, heard_entry. destruct (decide (d_pubkey v = pk)) as [He|Hne]; [|rewrite <- Hva; apply Hone].
  destruct Hv as [Hv|]; [|done]. simpl. destruct (entry_of st (d_pubkey v)) as [b|] eqn:Hb; simpl.
  - intros Hx. rewrite Hva, Hb in Hone. pose proof Hb as Hb0. apply entry_some in Hb0 as (i & Hi & Hbi). destruct (so_entry _ _ _ Hok Hi) as (b0 & Hb0 & Hbc & _ & Hne). assert (b0 = b) as -> by congruence.
    apply newest_after in Hx as [->|Hx]; [done|by apply Hone|done|done].
  - rewrite <- bc_new_update. assert (c = Processed \/ c = Confirmed) as [Hp|Hp] by (destruct c; naive_solver); rewrite Hp; intros [= <-]; done.
Qed.
End heard.
Lemma alike_intro q st st' : (forall pk, entry_of st pk = entry_of st' pk) -> (forall s, stage <$> st_slots st !! s = stage <$> st_slots st' !! s) ->
  (forall s pk, wrote st s pk <-> wrote st' s pk) -> (q = true -> forall p pk, listed st p pk <-> listed st' p pk) -> alike q st st'.
Proof.
  intros H1 H2 H3 H4. constructor; [done|done| |].
  - intros pk i i' s ss ss' Hi Hi' Hs Hs'. specialize (H3 s pk). unfold wrote in H3. rewrite Hi, Hi', Hs, Hs' in H3. naive_solver.
  - intros Hq p pk i i' Hi Hi'. specialize (H4 Hq p pk). unfold listed in H4. rewrite Hi, Hi' in H4. naive_solver.
Qed.
Lemma swap_alike c q st x y s1 s2 t1 t2 r1 r2 r3 r4 : c <> Finalized -> st_ok st -> heard c st x -> heard c st y -> told_apart [x; y] -> (q = true -> one_owner c st [x; y]) ->
  update_account x.1 st x.2 c = Done (s1, r1) -> update_account y.1 s1 y.2 c = Done (s2, r2) ->
  update_account y.1 st y.2 c = Done (t1, r3) -> update_account x.1 t1 x.2 c = Done (t2, r4) -> alike q s2 t2.
Proof.
  intros Hc Hok Hx Hy Hta Hone H1 H2 H3 H4.
  pose proof (update_ok _ _ _ _ _ _ Hok H1) as Ho1. pose proof (update_ok _ _ _ _ _ _ Hok H3) as Ho3.
  pose proof (heard_again _ _ _ _ _ Hc Hok Hx H1 _ Hy) as Hy1. pose proof (heard_again _ _ _ _ _ Hc Hok Hy H3 _ Hx) as Hx3.
  apply alike_intro.
  - intros pk. rewrite (heard_entry _ _ _ _ _ Hc Ho1 Hy1 H2), (heard_entry _ _ _ _ _ Hc Ho3 Hx3 H4), (heard_entry _ _ _ _ _ Hc Hok Hx H1), (heard_entry _ _ _ _ _ Hc Hok Hy H3).
    destruct (decide (pk = d_pubkey y.2)) as [Hpy|Hny], (decide (pk = d_pubkey x.2)) as [Hpx|Hnx]; [|done|done|done]. cbn [default]. f_equal.
    apply update_swap.
    + destruct (entry_of st pk) as [b|] eqn:He; simpl; [|apply bc_ok_empty]. apply entry_some in He as (i & _ & Hb). exact (so_bc _ Hok _ _ Hb).
    + intros Hs Hw. apply (Hta x y); [set_solver|set_solver|congruence|done|done].
  - intros s. rewrite (heard_stage _ _ _ _ _ Ho1 Hy1 H2), (heard_stage _ _ _ _ _ Ho3 Hx3 H4), (heard_stage _ _ _ _ _ Hok Hx H1), (heard_stage _ _ _ _ _ Hok Hy H3).
    destruct (decide (s = d_slot y.2)), (decide (s = d_slot x.2)); done.
  - intros s pk. rewrite (heard_wrote _ _ _ _ _ Hc Ho1 Hy1 H2), (heard_wrote _ _ _ _ _ Hc Ho3 Hx3 H4), (heard_wrote _ _ _ _ _ Hc Hok Hx H1), (heard_wrote _ _ _ _ _ Hc Hok Hy H3). tauto.
  - intros Hq p pk. destruct (Hone Hq) as [Hxy Hst].
    assert (d_owner y.2 = d_owner x.2 \/ d_pubkey y.2 <> d_pubkey x.2) as Hyx.
    { destruct (decide (d_pubkey y.2 = d_pubkey x.2)) as [He|]; [left; apply Hxy; [set_solver|set_solver|done]|by right]. }
    assert (forall z, version_at st (d_pubkey x.2) c = Some z -> d_owner z = d_owner x.2) as Hvx by (intros z; apply Hst; set_solver).
    assert (forall z, version_at st (d_pubkey y.2) c = Some z -> d_owner z = d_owner y.2) as Hvy by (intros z; apply Hst; set_solver).
    rewrite (heard_listed _ _ _ _ _ Hc Ho1 Hy1 H2) by (apply (heard_owner _ _ _ _ _ Hc Hok Hx H1); done).
    rewrite (heard_listed _ _ _ _ _ Hc Ho3 Hx3 H4) by (apply (heard_owner _ _ _ _ _ Hc Hok Hy H3); [|done]; destruct Hyx; [by left|right; congruence]).
    rewrite (heard_listed _ _ _ _ _ Hc Hok Hx H1) by done. rewrite (heard_listed _ _ _ _ _ Hc Hok Hy H3) by done.
    rewrite (heard_entry _ _ _ _ _ Hc Hok Hx H1), (heard_entry _ _ _ _ _ Hc Hok Hy H3). destruct (decide (pk = d_pubkey x.2)) as [Hpx|Hnx], (decide (pk = d_pubkey y.2)) as [Hpy|Hny]; try tauto.
    destruct Hyx as [Ho|]; [|congruence]. rewrite Ho. naive_solver.
Qed.
Lemma batch_run c E us : forall st, st_ok st -> exists st', run E st (batch c us) = Done st' /\ st_ok st'.
Proof.
  induction us as [|u us IH]; intros st Hok; simpl; [eauto|]. destruct (update_account_cases u.1 st u.2 c Hok) as (s1 & r & Hu & _).
  rewrite Hu. simpl. apply IH. by eapply update_ok.
Qed.
Lemma batch_alike c q E us : forall st st' s s', st_ok st -> st_ok st' -> alike q st st' -> run E st (batch c us) = Done s -> run E st' (batch c us) = Done s' -> alike q s s'.
Proof.
  induction us as [|u us IH]; intros st st' s s' Hok Hok' Hal; simpl; [by intros [= <-] [= <-]|].
  destruct (update_account u.1 st u.2 c) as [[s1 r]|] eqn:Hu; [|done]. destruct (update_account u.1 st' u.2 c) as [[s1' r']|] eqn:Hu'; [|done]. simpl.
  apply IH; [exact (update_ok _ _ _ _ _ _ Hok Hu)|exact (update_ok _ _ _ _ _ _ Hok' Hu')|]. exact (proj1 (update_alike _ _ _ _ _ _ _ _ _ _ Hok Hok' Hal Hu Hu')).
Qed.
Lemma perm_alike c q E us us' : c <> Finalized -> Permutation us us' -> forall st s s', st_ok st -> Forall (heard c st) us -> told_apart us -> (q = true -> one_owner c st us) ->
  run E st (batch c us) = Done s -> run E st (batch c us') = Done s' -> alike q s s'.
Proof.
  intros Hc. induction 1 as [|x l l' HP IH|x y l|l l' l'' HP1 IH1 HP2 IH2]; intros st s s' Hok Hh Hta Hone.
  - simpl. intros [= <-] [= <-]. apply alike_refl.
  - simpl. destruct (update_account x.1 st x.2 c) as [[s1 r]|] eqn:Hu; [|done]. simpl. apply Forall_cons in Hh as [Hx Hh].
    apply IH.
    + by eapply update_ok.
    + eapply Forall_impl; [exact Hh|]. intros v. exact (heard_again c st x s1 r Hc Hok Hx Hu v).
    + intros u v Hu' Hv'. apply Hta; by right.
    + intros Hq. destruct (Hone Hq) as [H1 H2]. split.
      * intros u v Hu' Hv'. apply H1; by right.
      * intros u z Hin. apply (heard_owner c st x s1 r Hc Hok Hx Hu u.2).
        -- destruct (decide (d_pubkey u.2 = d_pubkey x.2)); [left; apply H1; [by right|by left|done]|by right].
        -- intros w. apply H2. by right.
  - simpl. apply Forall_cons in Hh as [Hy Hh]. apply Forall_cons in Hh as [Hx Hh].
    destruct (update_account_cases y.1 st y.2 c Hok) as (s1 & r1 & Hu1 & _). pose proof (update_ok _ _ _ _ _ _ Hok Hu1) as Ho1. rewrite Hu1. simpl.
    destruct (update_account_cases x.1 s1 x.2 c Ho1) as (s2 & r2 & Hu2 & _). pose proof (update_ok _ _ _ _ _ _ Ho1 Hu2) as Ho2. rewrite Hu2. simpl.
    destruct (update_account_cases x.1 st x.2 c Hok) as (t1 & r3 & Hu3 & _). pose proof (update_ok _ _ _ _ _ _ Hok Hu3) as Ho3. rewrite Hu3. simpl.
    destruct (update_account_cases y.1 t1 y.2 c Ho3) as (t2 & r4 & Hu4 & _). pose proof (update_ok _ _ _ _ _ _ Ho3 Hu4) as Ho4. rewrite Hu4. simpl.
    apply batch_alike; [done|done|]. eapply (swap_alike c q st y x); [exact Hc|exact Hok|exact Hy|exact Hx| | |exact Hu1|exact Hu2|exact Hu3|exact Hu4].
    + intros u v Hu Hv. apply Hta; set_solver.
    + intros Hq. destruct (Hone Hq) as [H1 H2]. split; [intros u v Hu Hv; apply H1; set_solver|intros u z Hu; apply H2; set_solver].
  - intros Hs Hs''. destruct (batch_run c E l' st Hok) as (m & Hm & Hom). pose proof (run_ok _ _ _ _ Hok Hs) as Hos. pose proof (run_ok _ _ _ _ Hok Hs'') as Hos''.
    eapply alike_trans; [exact Hos|exact Hom|exact Hos''|exact (IH1 st s m Hok Hh Hta Hone Hs Hm)|]. eapply IH2; [exact Hok| | | |exact Hm|exact Hs''].
    + by rewrite <- HP1.
    + intros u v. rewrite <- HP1. apply Hta.
    + intros Hq. destruct (Hone Hq) as [H1 H2]. split; [intros u v; rewrite <- HP1; apply H1|intros u z; rewrite <- HP1; apply H2].
Qed.
