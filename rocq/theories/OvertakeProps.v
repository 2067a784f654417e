(** C109: account updates and slot notifications reach the store over separate channels and may overtake each other
    (update_account and process_slot_data, inmemory_account_store.rs 205-264 and 349-455). *)
From Verif Require Import Base SMap DataModel FilterModel FilterSpec FilterProofs FilterProps BincodeModel
  ByCommitModel ByCommitSpec ByCommitProofs StoreModel StoreSpec StoreProofs StoreSlot StoreViews StoreHist StoreEffects StoreProps ArrivalSpec AlikeProofs.

(** ** The walk does not depend on a slot it does not visit *)
Lemma walk_more n : forall m sl wa s par ip c r, slot_walk n sl wa s par ip c = Some r -> (n <= m)%nat -> slot_walk m sl wa s par ip c = Some r.
Proof.
  induction n as [|n IH]; intros m sl wa s par ip c r; simpl; [done|]. destruct m as [|m]; [lia|]. simpl. intros H Hm.
  destruct (sl !! s) as [ss|]; [|done]. destruct (bool_decide _); [done|]. destruct c; [done| |]; (destruct (match par with Some _ => _ | None => _ end) as [p|]; [|done]; apply IH; [done|lia]).
Qed.
Section frame.
Context (sl0 : gmap N status) (si : slot_info) (c : commitment) (t : N) (Ht : ~ visited sl0 si c t).
Lemma walk_frame fuel : forall sl sl1 wa s par r,
  (forall x ss, sl !! x = Some ss -> ss_commit ss <> c -> sl0 !! x = Some ss) -> (forall x, x <> t -> sl !! x = sl1 !! x) -> visited sl0 si c s ->
  (s = si_slot si /\ par = Some (si_parent si)) \/ (par = None /\ forall ss, sl !! si_slot si = Some ss -> ss_commit ss = c) ->
  slot_walk fuel sl wa s par (si_parent si) c = Some r ->
  exists sl1', slot_walk fuel sl1 wa s par (si_parent si) c = Some (sl1', r.2) /\ (forall x, x <> t -> r.1 !! x = sl1' !! x) /\ sl1' !! t = sl1 !! t /\ r.1 !! t = sl !! t.
Proof.
  induction fuel as [|fuel IH]; intros sl sl1 wa s par r HJ Hag Hv Hpar; simpl; [done|].
  assert (s <> t) as Hst by (intros ->; done). rewrite <- (Hag s Hst). destruct (sl !! s) as [ss|] eqn:Hs.
  - destruct (bool_decide (ss_commit ss = c)) eqn:Hb; [intros [= <-]; exists sl1; done|]. apply bool_decide_eq_false in Hb.
    set (parent := match par with Some _ => par | None => ss_parent ss end).
    pose proof (HJ _ _ Hs Hb) as Hs0.
    assert (on_chain sl0 si c s) as Hch.
    { destruct Hv as [|s' p Hc' Hnp Hp]; [by eapply chain_start|]. by eapply chain_up. }
    assert (parent = parent_of sl0 si s) as Hpo.
    { unfold parent, parent_of. destruct Hpar as [[-> ->]|[-> Hc']]; [by rewrite N.eqb_refl|]. destruct (N.eqb_spec s (si_slot si)) as [->|]; [by apply Hc' in Hs|]. by rewrite Hs0. }
    set (x := Status c (ss_accounts ss) parent).
    assert (forall y, y <> t -> <[s := x]> sl !! y = <[s := x]> sl1 !! y) as Hag'.
    { intros y Hy. destruct (decide (y = s)) as [->|]; [by rewrite !lookup_insert|]. rewrite !lookup_insert_ne by done. by apply Hag. }
    assert (forall (m : gmap N status), <[s := x]> m !! t = m !! t) as Hmt by (intros m; by rewrite lookup_insert_ne).
    assert (forall r, Some (<[s := x]> sl, wa ∪ gset_to_gmap s (ss_accounts ss)) = Some r ->
      exists sl1', Some (<[s := x]> sl1, wa ∪ gset_to_gmap s (ss_accounts ss)) = Some (sl1', r.2) /\ (forall y, y <> t -> r.1 !! y = sl1' !! y) /\ sl1' !! t = sl1 !! t /\ r.1 !! t = sl !! t) as Hend.
    { intros r0 [= <-]. exists (<[s := x]> sl1). split_and!; [done|exact Hag'|apply Hmt|apply Hmt]. }
    assert (forall p, c <> Processed -> parent = Some p -> slot_walk fuel (<[s := x]> sl) (wa ∪ gset_to_gmap s (ss_accounts ss)) p None (si_parent si) c = Some r ->
      exists sl1', slot_walk fuel (<[s := x]> sl1) (wa ∪ gset_to_gmap s (ss_accounts ss)) p None (si_parent si) c = Some (sl1', r.2) /\ (forall y, y <> t -> r.1 !! y = sl1' !! y) /\ sl1' !! t = sl1 !! t /\ r.1 !! t = sl !! t) as Hgo.
    { intros p Hnp Hp Hw. rewrite <- (Hmt sl1), <- (Hmt sl). apply IH; [| exact Hag'| | |exact Hw].
      - intros y sy. destruct (decide (y = s)) as [->|Hy]; [rewrite lookup_insert; intros [= <-]; done|]. rewrite lookup_insert_ne by done. apply HJ.
      - eapply v_up; [exact Hch|done|congruence].
      - right. split; [done|]. intros sy. destruct (decide (si_slot si = s)) as [He|Hy]; [rewrite He, lookup_insert; by intros [= <-]|]. rewrite lookup_insert_ne by done.
        destruct Hpar as [[-> _]|[_ Hc']]; [done|apply Hc']. }
    destruct c; [apply Hend| |]; (destruct parent as [p|]; [apply Hgo; done|apply Hend]).
  - destruct c; (intros [= <-]; eexists; split; [reflexivity|]; cbn [fst snd]; try done);
      (split; [intros y Hy; destruct (decide (y = s)) as [->|]; [by rewrite !lookup_insert|rewrite !lookup_insert_ne by done; by apply Hag]|]; by rewrite !lookup_insert_ne).
Qed.
Lemma phase_frame sl1 r r1 : (c = Finalized -> si_slot si < t) -> (forall x, x <> t -> sl0 !! x = sl1 !! x) -> slot_phase sl0 si c = Some r -> slot_phase sl1 si c = Some r1 ->
  r1.2 = r.2 /\ (forall x, x <> t -> r.1 !! x = r1.1 !! x) /\ r1.1 !! t = sl1 !! t /\ r.1 !! t = sl0 !! t.
Proof.
  intros Hc Hag. unfold slot_phase. destruct (slot_walk _ sl0 _ _ _ _ _) as [w|] eqn:Hw; [|done]. destruct (slot_walk _ sl1 _ _ _ _ _) as [w1|] eqn:Hw1; [|done].
  destruct (walk_frame (S (size sl0)) sl0 sl1 ∅ (si_slot si) (Some (si_parent si)) w) as (sl1' & Hw' & H1 & H2 & H3); [done|done|apply v_start|by left|exact Hw|].
  assert (w1 = (sl1', w.2)) as ->.
  { apply (walk_more _ (S (size sl0) + S (size sl1))) in Hw'; [|lia]. apply (walk_more _ (S (size sl0) + S (size sl1))) in Hw1; [|lia]. congruence. }
  destruct w as [w0 wa]. simpl in *. assert (forall (m m' : gmap N status) x, m !! x = m' !! x -> prune_slots (si_slot si) m !! x = prune_slots (si_slot si) m' !! x) as Hpr.
  { intros m m' x Hx. unfold prune_slots. rewrite !map_filter_lookup, Hx. done. }
  assert (forall (m m' : gmap N status), si_slot si < t -> m !! t = m' !! t -> prune_slots (si_slot si) m !! t = m' !! t) as Hpt.
  { intros m m' Hlt Hx. unfold prune_slots. rewrite map_filter_lookup, Hx. destruct (m' !! t); [|done]. simpl. rewrite option_guard_True; [done|]. simpl. lia. }
  destruct c; intros [= <-] [= <-]; [done|done|]. specialize (Hc eq_refl). cbn [fst snd]. split_and!; [done|intros x Hx; by apply Hpr, H1|by apply Hpt|by apply Hpt].
Qed.
End frame.

(** ** One entry *)
Lemma prune_put s t (a : acct) (m : smap acct) k v : s < t -> last m = Some (k, v) -> s <= k -> prune s (sm_put t a m) = sm_put t a (prune s m).
Proof.
  intros Ht. induction m as [|[k1 v1] m IH]; [done|]. destruct m as [|[k2 v2] m].
  - intros [= -> ->] Hk. simpl. destruct (N.ltb_spec t k); simpl; [by destruct (N.ltb_spec t s); [lia|]|]. destruct (N.eqb_spec t k); simpl; [done|]. by destruct (N.ltb_spec k s); [lia|].
  - intros Hl Hk. change (last ((k2, v2) :: m) = Some (k, v)) in Hl. specialize (IH Hl Hk).
    change (prune s ((k1, v1) :: (k2, v2) :: m)) with (if k1 <? s then prune s ((k2, v2) :: m) else (k1, v1) :: (k2, v2) :: m).
    change (sm_put t a ((k1, v1) :: (k2, v2) :: m)) with (if t <? k1 then (t, a) :: (k1, v1) :: (k2, v2) :: m else if t =? k1 then (t, a) :: (k2, v2) :: m else (k1, v1) :: sm_put t a ((k2, v2) :: m)).
    assert (forall x m', m' <> [] -> prune s (x :: m') = if x.1 <? s then prune s m' else x :: m') as Hpr by (intros [x y] [|z m'] Hne; done).
    destruct (N.ltb_spec k1 s) as [H1|H1].
    + destruct (N.ltb_spec t k1); [lia|]. destruct (N.eqb_spec t k1); [lia|]. rewrite Hpr by apply sm_put_nonempty. simpl fst. destruct (N.ltb_spec k1 s); [|lia]. exact IH.
    + change (sm_put t a ((k1, v1) :: (k2, v2) :: m)) with (if t <? k1 then (t, a) :: (k1, v1) :: (k2, v2) :: m else if t =? k1 then (t, a) :: (k2, v2) :: m else (k1, v1) :: sm_put t a ((k2, v2) :: m)).
      destruct (N.ltb_spec t k1); [rewrite Hpr by done; simpl fst; by destruct (N.ltb_spec t s); [lia|]|]. destruct (N.eqb_spec t k1); [rewrite Hpr by done; simpl fst; by destruct (N.ltb_spec t s); [lia|]|].
      rewrite Hpr by apply sm_put_nonempty. simpl fst. by destruct (N.ltb_spec k1 s); [lia|].
Qed.
Lemma kept_last b s : bc_ok b -> kept b s -> exists k v, last (bc_proc b) = Some (k, v) /\ s <= k.
Proof.
  intros Hb [[p Hp]|(y & Hy & Hs)].
  - destruct (sm_last_nonempty (bc_proc b)) as (k & v & Hl); [by intros Hn; rewrite Hn in Hp|]. exists k, v. split; [done|]. apply sm_last_spec in Hl as [_ Hm]; [eauto|by apply ok_sorted].
  - destruct (ok_fin _ Hb _ Hy) as (x & Hx & Hle). destruct (ok_conf _ Hb _ Hx) as (k & v & Hl & Hk). exists k, v. split; [done|lia].
Qed.
Lemma promote_update b a s c : bc_ok b -> bc_proc b <> [] -> kept b s -> (c = Finalized -> s < d_slot a) -> s <> d_slot a ->
  bc_promote (bc_update b a Processed).1 s c = ((bc_update (bc_promote b s c).1 a Processed).1, (bc_promote b s c).2) /\
  (bc_update (bc_promote b s c).1 a Processed).2 = (bc_update b a Processed).2 /\ bc_get (bc_promote b s c).1 Processed = bc_get b Processed.
Proof.
  intros Hb Hne Hkp Hc Hs.
  assert (last (bc_proc (bc_promote b s c).1) = last (bc_proc b)) as Hla by (rewrite bc_promote_proc; destruct c; rewrite ?prune_last; done).
  assert (sm_get (d_slot a) (bc_proc (bc_promote b s c).1) = sm_get (d_slot a) (bc_proc b)) as Hga.
  { rewrite bc_promote_proc. destruct c; [done|done|]. apply prune_get; [by apply ok_sorted|]. pose proof (Hc eq_refl). lia. }
  assert (upd_proc (bc_promote b s c).1 a = match c with Finalized => prune s (upd_proc b a) | _ => upd_proc b a end) as Hup.
  { unfold upd_proc. rewrite Hga, bc_promote_proc. destruct c; [done|done|]. specialize (Hc eq_refl). destruct (kept_last b s Hb Hkp) as (k & v & Hl & Hk).
    destruct (sm_get (d_slot a) (bc_proc b)) as [x|]; [destruct (d_wv x <? d_wv a)|]; [|done|]; symmetry; by eapply prune_put. }
  rewrite !bc_update_unfold. unfold upd_proc_changed, upd_conf, upd_fin. rewrite Hup, Hga. cbn [fst snd]. split_and!; [|done|].
  - unfold bc_promote. cbn [bc_proc bc_conf bc_fin]. rewrite upd_proc_get_ne by done.
    destruct (sm_get s (bc_proc b)) as [x|]; destruct c; try done; cbn [bc_conf bc_fin].
    + destruct (bc_conf b) as [y|] eqn:Hy; [|done]. destruct (d_slot y <? d_slot x); cbn [fst snd bc_conf]; [done|]. by rewrite Hy.
    + destruct (bc_fin b) as [y|] eqn:Hy; [|done]. by destruct (d_slot y <? d_slot x).
  - unfold bc_get. rewrite Hla. destruct (sm_last_nonempty (bc_proc b) Hne) as (k & v & ->). done.
Qed.

(** ** A notification, entry by entry *)
(** The entry and whether it is dropped. *)
Definition settled (F : filt) (c : commitment) (o : option N) (b : bycom) : bycom * bool := match o with Some s => (prom_after F b s c).1 | None => (b, false) end.
Definition owned_by (F : filt) (b : bycom) (o : option N) (c : commitment) (p : pubkey) (before : Prop) : Prop := match o with Some s => own_after F b s c p before | None => before end.
Lemma prom_update F b b1 s c (a : acct) : bc_promote b1 s c = ((bc_update (bc_promote b s c).1 a Processed).1, (bc_promote b s c).2) ->
  (prom_after F b1 s c).2 = (prom_after F b s c).2 /\ (prom_after F b1 s c).1.2 = (prom_after F b s c).1.2 /\
  ((prom_after F b s c).1.2 = false -> (prom_after F b s c).1.1 = (bc_promote b s c).1 /\ (prom_after F b1 s c).1.1 = (bc_update (bc_promote b s c).1 a Processed).1).
Proof. intros H. unfold prom_after. rewrite H. destruct (bc_promote b s c) as [b' [[x [p|]]|]]; cbn [fst snd]; [|done|done]. by destruct (drops F c p x). Qed.
Section plain.
Context (F : filt) (st st1 : store) (si : slot_info) (c : commitment) (wa : gmap nat N) (Hok : st_ok st) (Hse : slot_effect F st si c wa st1).
Lemma plain_index pk i b : st_index st !! pk = Some i -> st_accounts st !! i = Some b -> st_index st1 !! pk = if (settled F c (wa !! i) b).2 then None else Some i.
Proof.
  intros Hi Hb. pose proof (slot_version F st si c wa st1 pk i b Hok Hse Hi Hb) as Hv. unfold settled. destruct (wa !! i) as [s|]; [|by destruct Hv].
  destruct (prom_after F b s c) as [[b' del] rep]. by destruct Hv.
Qed.
Lemma plain_account pk i b : st_index st !! pk = Some i -> st_accounts st !! i = Some b -> st_accounts st1 !! i = Some (settled F c (wa !! i) b).1.
Proof.
  intros Hi Hb. pose proof (slot_version F st si c wa st1 pk i b Hok Hse Hi Hb) as Hv. unfold settled. destruct (wa !! i) as [s|]; [|by destruct Hv].
  destruct (prom_after F b s c) as [[b' del] rep]. by destruct Hv.
Qed.
Lemma plain_entry pk i b : st_index st !! pk = Some i -> st_accounts st !! i = Some b -> entry_of st1 pk = if (settled F c (wa !! i) b).2 then None else Some (settled F c (wa !! i) b).1.
Proof. intros Hi Hb. unfold entry_of. rewrite (plain_index _ _ _ Hi Hb). destruct (settled F c (wa !! i) b).2; [done|]. simpl. exact (plain_account _ _ _ Hi Hb). Qed.
Lemma plain_listed pk i b p : st_index st !! pk = Some i -> st_accounts st !! i = Some b ->
  listed st1 p pk <-> (settled F c (wa !! i) b).2 = false /\ owned_by F b (wa !! i) c p (listed st p pk).
Proof.
  intros Hi Hb. assert (forall s, st_index s !! pk = Some i -> listed s p pk <-> i ∈ own (st_owners s) p) as Hl by (intros s Hs; unfold listed; rewrite Hs; naive_solver).
  pose proof (plain_index _ _ _ Hi Hb) as Hx. destruct (settled F c (wa !! i) b).2 eqn:Hd.
  { unfold listed at 1. rewrite Hx. naive_solver. }
  rewrite (Hl st1 Hx). assert (i ∈ own (st_owners st1) p <-> owned_by F b (wa !! i) c p (listed st p pk)) as ->; [|naive_solver]. destruct (wa !! i) as [s|] eqn:Hw; simpl.
  - destruct (prom_after F b s c) as [[b' del] rep] eqn:Hp. destruct (se_entry _ _ _ _ _ _ Hse _ _ _ _ _ _ Hw Hb Hp) as (_ & _ & ->). unfold own_after. destruct (bc_promote b s c).2 as [[x [y|]]|]; rewrite Hl by done; done.
  - rewrite Hl by done. by apply (se_own _ _ _ _ _ _ Hse).
Qed.
End plain.

Lemma owned_by_iff F b o c p P Q : (P <-> Q) -> owned_by F b o c p P <-> owned_by F b o c p Q.
Proof. intros H. destruct o as [s|]; simpl; [|done]. unfold own_after. destruct (bc_promote b s c).2 as [[x [y|]]|]; rewrite H; done. Qed.
Lemma owned_by_swap F G b b1 b2 a o c p P : (forall s, o = Some s -> (bc_promote b1 s c).2 = (bc_promote b s c).2) ->
  (bc_update b2 a Processed).2 = (bc_update b a Processed).2 -> bc_get b2 Processed = bc_get b Processed ->
  (c = Finalized -> forall s y x, o = Some s -> (bc_promote b s c).2 = Some (y, Some x) -> d_owner x = d_owner y \/ d_owner x <> d_owner a) ->
  owned_by F b1 o c p (owned_after G b a Processed p P) <-> owned_after G b2 a Processed p (owned_by F b o c p P).
Proof.
  intros H1 H2 H3 H4. unfold owned_after. rewrite H2, H3. destruct o as [s|]; cbn [owned_by]; [|reflexivity]. unfold own_after. rewrite (H1 s eq_refl).
  destruct (bc_get b Processed) as [u|]; [|reflexivity]. destruct (bc_update b a Processed).2; [|reflexivity]. destruct (bc_promote b s c).2 as [[x [y|]]|] eqn:Hpr; [|reflexivity|reflexivity].
  assert (forall A : Prop, ~ (Processed = Finalized /\ A)) as Hno' by (intros A [? _]; done). pose proof (Hno' (d_owner u <> d_owner a /\ p = d_owner u)).
  assert (p = d_owner a -> ~ (c = Finalized /\ d_owner y <> d_owner x /\ p = d_owner y)) as Hx.
  { intros -> (Hf & Hn & He). destruct (H4 Hf s x y eq_refl Hpr); congruence. }
  tauto.
Qed.

(** ** The two orders *)
Lemma update_slots G st a c s1 r x : st_ok st -> update_account G st a c = Done (s1, r) -> x <> d_slot a -> st_slots s1 !! x = st_slots st !! x.
Proof.
  intros Hok H Hx. apply update_account_inv in H; [|done]. destruct H as [|? ? ? ? Hadd|? ? ? ? ? ? ? ? ? Hadd|? ? ? ? ? ? ? ? ? Hadd]; [done|..];
    apply add_to_status_spec in Hadd as (_ & Hadd & _); by apply Hadd.
Qed.
Lemma visited_chain sl si c s : on_chain sl si c s -> visited sl si c s.
Proof. intros [|]; [apply v_start|by eapply v_up]. Qed.
Lemma overtake q F G st a si c s1 r s2 l t1 l' t2 r' : st_ok st -> st_kept st -> ~ visited (st_slots st) si c (d_slot a) -> still_processed st (d_slot a) ->
  (c = Finalized -> descending (st_slots st) si c /\ si_slot si < d_slot a /\ (tracked st (d_pubkey a) -> tracked t1 (d_pubkey a)) /\
     (q = true -> forall x y, version_at st (d_pubkey a) Finalized = Some x -> version_at t1 (d_pubkey a) Finalized = Some y -> d_owner x = d_owner y \/ d_owner x <> d_owner a)) ->
  update_account G st a Processed = Done (s1, r) -> process_slot F s1 si c = Done (s2, l) ->
  process_slot F st si c = Done (t1, l') -> update_account G t1 a Processed = Done (t2, r') -> alike q s2 t2 /\ l = l' /\ r = r'.
Proof.
  intros Hok HK Hv Hk Hc Hu Hs Ht Hu'. pose proof (update_ok _ _ _ _ _ _ Hok Hu) as Ho1.
  destruct (process_slot_spec F st si c Hok) as (z & sl & wa & Hz & Hph & Hsl & Hse). assert (z = t1 /\ l' = reports F st c (map_to_list wa)) as [-> ->] by (split; congruence).
  destruct (process_slot_spec F s1 si c Ho1) as (z & sl1 & wa1 & Hz1 & Hph1 & Hsl1 & Hse1). assert (z = s2 /\ l = reports F s1 c (map_to_list wa1)) as [-> ->] by (split; congruence).
  clear Hz Hz1. pose proof (se_ok _ _ _ _ _ _ Hse) as Hot1. pose proof (se_ok _ _ _ _ _ _ Hse1) as Hos2.
  assert (forall y, y <> d_slot a -> st_slots st !! y = st_slots s1 !! y) as Hag by (intros y Hy; symmetry; by eapply update_slots).
  assert (c = Finalized -> si_slot si < d_slot a) as Hlt by (intros Hf; by destruct (Hc Hf) as (_ & ? & _)).
  destruct (phase_frame _ _ _ _ Hv _ _ _ Hlt Hag Hph Hph1) as (Hwa & Hagr & Ht1 & Ht0). cbn [fst snd] in Hwa, Hagr, Ht1, Ht0. subst wa1.
  pose proof (slot_phase_spec _ _ _ _ _ Hph) as (Hin & _).
  assert (forall i s, wa !! i = Some s -> s <> d_slot a) as Hwt by (intros i s Hw ->; apply Hv, visited_chain, (Hin _ _ Hw)).
  assert (forall i s, wa !! i = Some s -> c = Finalized -> s < d_slot a) as Hwf.
  { intros i s Hw Hf. destruct (Hc Hf) as (Hd & Hlt' & _). destruct (Hin _ _ Hw) as [Hch _]. assert (s <= si_slot si); [|lia].
    clear -Hch Hd. induction Hch as [|s p ss Hs IH Hnp Hp Hss Hc']; [lia|]. pose proof (Hd _ _ Hs Hp). lia. }
  (* the entry of the account is not dropped *)
  assert (forall i b, st_index st !! d_pubkey a = Some i -> st_accounts st !! i = Some b -> (settled F c (wa !! i) b).2 = false) as Hnd.
  { intros i b Hi Hb. pose proof (plain_index F st t1 si c wa Hok Hse _ _ _ Hi Hb) as Hx. destruct (settled F c (wa !! i) b).2 eqn:Hd; [exfalso|done].
    assert (c = Finalized) as Hf. { unfold settled in Hd. destruct (wa !! i) as [s|]; [|done]. unfold prom_after in Hd. destruct (bc_promote b s c) as [b' [[x [y|]]|]]; [|done|done].
      destruct (drops F c y x) eqn:Hdr; [|done]. by apply drops_true in Hdr as [? _]. }
    destruct (Hc Hf) as (_ & _ & Htr & _). destruct Htr as [j Hj]; [by exists i|]. congruence. }
  assert (forall i, st_index st !! d_pubkey a = Some i -> st_index t1 !! d_pubkey a = Some i) as Hixs.
  { intros i Hi. destruct (so_entry _ _ _ Hok Hi) as (b & Hb & _). by rewrite (plain_index F st t1 si c wa Hok Hse _ _ _ Hi Hb), (Hnd i b Hi Hb). }
  assert (st_index st !! d_pubkey a = None -> st_index t1 !! d_pubkey a = None) as Hixn by apply (se_none _ _ _ _ _ _ Hse).
  destruct (decide (st_index st !! d_pubkey a = None /\ fl_sat G a = false)) as [[Hi Hf]|Hn].
  { assert (s1 = st /\ r = false) as [-> ->].
    { apply update_account_inv in Hu; [|done]. destruct Hu; [done|congruence|congruence|congruence]. }
    assert (t2 = t1 /\ r' = false) as [-> ->].
    { apply update_account_inv in Hu'; [|done]. apply Hixn in Hi. destruct Hu'; [done|congruence|congruence|congruence]. }
    rewrite Hs in Ht. injection Ht as <-. split_and!; [apply alike_refl|done|done]. }
  assert (heard Processed st (G, a)) as Hh.
  { split; [|exact Hk]. simpl. destruct (st_index st !! d_pubkey a) as [i|] eqn:Hi; [left; by exists i|]. right. destruct (fl_sat G a); [done|]. by destruct Hn. }
  assert (st_slots t1 !! d_slot a = st_slots st !! d_slot a) as Htt by (by rewrite Hsl).
  assert (heard Processed t1 (G, a)) as Hh'.
  { destruct Hh as [H1 H2]. split; [|unfold slot_commit in *; simpl in *; by rewrite Htt]. destruct H1 as [[i Hi]|H1]; [left|by right]. exists i. by apply Hixs. }
  assert (Processed <> Finalized) as HPF by done.
  pose proof (heard_entry Processed st (G, a) s1 r HPF Hok Hh Hu) as He1. pose proof (heard_entry Processed t1 (G, a) t2 r' HPF Hot1 Hh' Hu') as He2.
  pose proof (heard_stage Processed st (G, a) s1 r Hok Hh Hu) as Hst1. pose proof (heard_stage Processed t1 (G, a) t2 r' Hot1 Hh' Hu') as Hst2.
  pose proof (heard_wrote Processed st (G, a) s1 r HPF Hok Hh Hu) as Hw1. pose proof (heard_wrote Processed t1 (G, a) t2 r' HPF Hot1 Hh' Hu') as Hw2.
  pose proof (heard_index Processed st (G, a) s1 r HPF Hok Hh Hu) as Hx1. pose proof (heard_index Processed t1 (G, a) t2 r' HPF Hot1 Hh' Hu') as Hx2.
  pose proof (heard_effective Processed st (G, a) s1 r HPF Hh Hu) as Hef. pose proof (heard_effective Processed t1 (G, a) t2 r' HPF Hh' Hu') as Hef'.
  destruct (heard_tracked Processed st (G, a) s1 r HPF Hok Hh Hu) as [j Hj]. destruct (heard_tracked Processed t1 (G, a) t2 r' HPF Hot1 Hh' Hu') as [k Hk2].
  destruct (delivery _ _ _ _ _ _ Hok Hu) as [D1 _ _ D4 _ _ D7]. destruct (delivery _ _ _ _ _ _ Hot1 Hu') as [D1' _ _ D4' _ _ D7'].
  cbn [fst snd] in He1, He2, Hst1, Hst2, Hw1, Hw2, Hef, Hef', Hj, Hk2. rewrite Hef in D4, D7. rewrite Hef' in D4', D7'.
  assert ((exists i b, st_index st !! d_pubkey a = Some i /\ st_accounts st !! i = Some b /\ entry_of st (d_pubkey a) = Some b) \/ (st_index st !! d_pubkey a = None /\ entry_of st (d_pubkey a) = None /\ entry_of t1 (d_pubkey a) = None)) as Hcase.
  { destruct (st_index st !! d_pubkey a) as [i|] eqn:Hi.
    - left. destruct (so_entry _ _ _ Hok Hi) as (b & Hb & _). exists i, b. split_and!; [done|done|]. apply entry_some. eauto.
    - right. split_and!; [done|by apply entry_none|]. apply entry_none; [done|]. by apply Hixn. }
  (* a new entry is in no slot that is walked *)
  assert (st_index st !! d_pubkey a = None -> wa !! j = None) as Hnew.
  { intros Hi. destruct (wa !! j) as [s|] eqn:Hw; [exfalso|done]. destruct (Hin _ _ Hw) as (_ & ss & Hss & Hjs). pose proof (Hwt _ _ Hw) as Hst.
    rewrite Hag in Hss by done. assert (wrote s1 s (d_pubkey a)) as Hwr by (by exists j, ss). apply Hw1 in Hwr as [(i & ? & Hi' & _)|[_ ?]]; [congruence|done]. }
  (* promotion and update of the entry *)
  assert (forall i b, st_index st !! d_pubkey a = Some i -> st_accounts st !! i = Some b ->
    settled F c (wa !! i) (bc_update b a Processed).1 = ((bc_update (settled F c (wa !! i) b).1 a Processed).1, false) /\
    (forall s, wa !! i = Some s -> (bc_promote (bc_update b a Processed).1 s c).2 = (bc_promote b s c).2 /\ (prom_after F (bc_update b a Processed).1 s c).2 = (prom_after F b s c).2) /\
    (bc_update (settled F c (wa !! i) b).1 a Processed).2 = (bc_update b a Processed).2 /\ bc_get (settled F c (wa !! i) b).1 Processed = bc_get b Processed) as Hpu.
  { intros i b Hi Hb. destruct (so_entry _ _ _ Hok Hi) as (b0 & Hb0 & Hbc & _ & Hne). assert (b0 = b) as -> by congruence. pose proof (Hnd i b Hi Hb) as Hd.
    destruct (wa !! i) as [s|] eqn:Hw; cbn [settled fst snd] in *; [|split_and!; done].
    destruct (Hin _ _ Hw) as (_ & ss & Hss & His). assert (kept b s) as Hkp by (by eapply HK).
    destruct (promote_update b a s c Hbc Hne Hkp (Hwf _ _ Hw) (Hwt _ _ Hw)) as (H1 & H2 & H3). destruct (prom_update F b _ s c a H1) as (P1 & P2 & P3). destruct (P3 Hd) as [P4 P5].
    rewrite P4. split_and!; [|intros ? [= <-]; by rewrite H1|done|done]. rewrite Hd in P2. destruct (prom_after F (bc_update b a Processed).1 s c) as [[x d] o]. cbn [fst snd] in *. congruence. }
  assert (r = r') as Hrr.
  { rewrite D4, D4'. destruct Hcase as [(i & b & Hi & Hb & He)|(Hi & He & He')].
    - rewrite He, (plain_entry F st t1 si c wa Hok Hse _ _ _ Hi Hb), (Hnd _ _ Hi Hb). by destruct (Hpu i b) as (_ & _ & -> & _).
    - by rewrite He, He'. }
  assert (reports F s1 c (map_to_list wa) = reports F st c (map_to_list wa)) as Hrep.
  { unfold reports. assert (forall x, x ∈ map_to_list wa -> (let '(i, s) := x in b ← st_accounts s1 !! i; (prom_after F b s c).2) = (let '(i, s) := x in b ← st_accounts st !! i; (prom_after F b s c).2)) as Hone.
    { intros [i s] Hw. apply elem_of_map_to_list in Hw. pose proof (proj2 (phase_ok _ _ _ _ _ Hok Hph)) as Hlen. rewrite Forall_forall in Hlen. specialize (Hlen (i, s)). simpl in Hlen. rewrite elem_of_map_to_list in Hlen. specialize (Hlen Hw).
      pose proof Hu as Huc. apply update_account_inv in Huc; [|done]. destruct Huc as [|? ? ? ? Hadd|m b sl' c' b' upd ow' Hm Hb Hadd Hup Hud _|m b sl' c' b' prev ow' Hm Hb Hadd Hup Hg Hud]; cbn [st_accounts] in *.
      - done.
      - by rewrite lookup_app_l.
      - destruct (decide (i = m)) as [->|]; [|by rewrite list_lookup_insert_ne]. rewrite list_lookup_insert by done. rewrite Hb. simpl.
        pose proof (effective_add _ _ _ _ _ _ Hadd) as Hc'. rewrite Hef in Hc'. subst c'. destruct (Hpu m b Hm Hb) as (_ & Hq & _). destruct (Hq s Hw) as [_ Hq']. rewrite Hup in Hq'. exact Hq'.
      - pose proof (effective_add _ _ _ _ _ _ Hadd) as Hc'. rewrite Hef in Hc'. subst c'. exfalso. destruct (so_entry _ _ _ Hok Hm) as (b0 & Hb0 & Hbc0 & Hall & _). assert (b0 = b) as -> by congruence.
        destruct (update_owner_delete_spec G (st_owners st) prev a m Processed (bc_pk_get _ b Processed _ Hbc0 Hall Hg)) as (ow1 & del & H1 & H2 & _). rewrite H1 in Hud. injection Hud as -> ->. destruct H2 as [H2 _]. by destruct (H2 eq_refl) as [? _]. }
    clear -Hone. induction (map_to_list wa) as [|y m IH]; [done|]. cbn [omap list_omap]. rewrite (Hone y) by set_solver. rewrite IH; [done|]. intros x Hx. apply Hone. set_solver. }
  (* the other accounts *)
  assert (forall p i, p <> d_pubkey a -> st_index st !! p = Some i -> exists b, st_accounts st !! i = Some b /\ st_index s1 !! p = Some i /\ st_accounts s1 !! i = Some b) as Hoth.
  { intros p i Hp Hi. destruct (D1 _ Hp) as [Hi1 Hent]. destruct (so_entry _ _ _ Hok Hi) as (b & Hb & _). exists b. rewrite Hi1. split_and!; [done|done|].
    unfold entry_of in Hent. rewrite Hi1, Hi in Hent. simpl in Hent. congruence. }
  assert (forall p, p <> d_pubkey a -> st_index s2 !! p = st_index t1 !! p) as Hix2.
  { intros p Hp. destruct (st_index st !! p) as [i|] eqn:Hi.
    - destruct (Hoth p i Hp Hi) as (b & Hb & Hi1 & Hb1). by rewrite (plain_index F st t1 si c wa Hok Hse _ _ _ Hi Hb), (plain_index F s1 s2 si c wa Ho1 Hse1 _ _ _ Hi1 Hb1).
    - rewrite (se_none _ _ _ _ _ _ Hse _ Hi). apply (se_none _ _ _ _ _ _ Hse1). by destruct (D1 _ Hp) as [-> _]. }
  (* the account itself after update and notification *)
  assert (exists b1, st_accounts s1 !! j = Some b1 /\ (settled F c (wa !! j) b1).2 = false /\ entry_of t2 (d_pubkey a) = Some (settled F c (wa !! j) b1).1 /\
    forall i b, st_index st !! d_pubkey a = Some i -> st_accounts st !! i = Some b -> j = i /\ b1 = (bc_update b a Processed).1) as (b1 & Hb1 & Hd1 & Hent1 & Hold).
  { destruct (so_entry _ _ _ Ho1 Hj) as (b1 & Hb1 & _). exists b1. pose proof (He1 (d_pubkey a)) as E1. rewrite decide_True in E1 by done. unfold entry_of at 1 in E1. rewrite Hj in E1. simpl in E1. rewrite Hb1 in E1.
    pose proof (He2 (d_pubkey a)) as E2. rewrite decide_True in E2 by done. destruct Hcase as [(i & b & Hi & Hb & He)|(Hi & He & He')].
    - pose proof (Hx1 _ _ Hi) as Hi1. assert (j = i) as -> by congruence. rewrite He in E1. simpl in E1. injection E1 as ->. destruct (Hpu i b Hi Hb) as (-> & _). cbn [fst snd].
      rewrite E2, (plain_entry F st t1 si c wa Hok Hse _ _ _ Hi Hb), (Hnd _ _ Hi Hb). split_and!; [done|done|done|]. intros i' b' Hi' Hb'. assert (i' = i) as -> by congruence. split; congruence.
    - rewrite (Hnew Hi). rewrite He in E1. rewrite He' in E2. cbn [settled fst snd]. split_and!; [done|done|congruence|]. intros i b Hi'. congruence. }
  assert (st_index s2 !! d_pubkey a = Some j) as Hj2 by (by rewrite (plain_index F s1 s2 si c wa Ho1 Hse1 _ _ _ Hj Hb1), Hd1).
  split_and!; [|exact Hrep|exact Hrr]. apply alike_intro.
  - intros p. destruct (decide (p = d_pubkey a)) as [->|Hp].
    + by rewrite Hent1, (plain_entry F s1 s2 si c wa Ho1 Hse1 _ _ _ Hj Hb1), Hd1.
    + rewrite He2, decide_False by done. destruct (st_index st !! p) as [i|] eqn:Hi.
      * destruct (Hoth p i Hp Hi) as (b & Hb & Hi1 & Hb1'). by rewrite (plain_entry F st t1 si c wa Hok Hse _ _ _ Hi Hb), (plain_entry F s1 s2 si c wa Ho1 Hse1 _ _ _ Hi1 Hb1').
      * unfold entry_of. rewrite (Hix2 _ Hp), (se_none _ _ _ _ _ _ Hse _ Hi). done.
  - intros s. rewrite Hst2, Hsl, Hsl1. destruct (decide (s = d_slot a)) as [->|Hne]; [|by rewrite Hagr]. rewrite Ht1, Hst1, decide_True, Ht0 by done. done.
  - intros s p. rewrite Hw2. unfold wrote. rewrite Hsl1, Hsl. destruct (decide (p = d_pubkey a)) as [->|Hp].
    + rewrite Hj2. destruct (decide (s = d_slot a)) as [->|Hne].
      * rewrite Ht1. split; [by right|]. intros _. pose proof (proj2 (Hw1 (d_slot a) (d_pubkey a)) (or_intror (conj eq_refl eq_refl))) as Hwr. unfold wrote in Hwr. by rewrite Hj in Hwr.
      * rewrite <- Hagr by done. split.
        -- intros (i & ss & [= <-] & Hss & His). left. destruct (phase_accounts _ _ _ _ _ _ _ _ Hph Hss His) as (ss0 & Hs0 & Hin0). rewrite Hag in Hs0 by done.
           assert (wrote s1 s (d_pubkey a)) as Hwr by (by exists j, ss0). apply Hw1 in Hwr as [(i & _ & Hi & _)|[_ ?]]; [|done]. pose proof (Hx1 _ _ Hi). assert (i = j) as -> by congruence. exists j, ss. split_and!; [by apply Hixs|done|done].
        -- intros [(i & ss & Hi & Hss & His)|[_ ?]]; [|done]. apply (index_back _ _ _ _ _ _ _ _ Hok Hse) in Hi. pose proof (Hx1 _ _ Hi). assert (i = j) as -> by congruence. by exists j, ss.
    + rewrite (Hix2 _ Hp). destruct (decide (s = d_slot a)) as [->|Hne]; [|rewrite <- Hagr by done; naive_solver]. rewrite Ht1, Ht0.
      assert (forall i, st_index t1 !! p = Some i -> st_index st !! p = Some i /\ st_index s1 !! p = Some i) as Hback.
      { intros i Hi. apply (index_back _ _ _ _ _ _ _ _ Hok Hse) in Hi. split; [done|by apply Hx1]. }
      split.
      * intros (i & ss & Hi & Hss & His). left. destruct (Hback _ Hi) as [Hi0 Hi1]. assert (wrote s1 (d_slot a) p) as Hwr by (by exists i, ss).
        apply Hw1 in Hwr as [(i' & ss' & Hi' & Hss' & His')|[? _]]; [|done]. assert (i' = i) as -> by congruence. by exists i, ss'.
      * intros [(i & ss & Hi & Hss & His)|[? _]]; [|done]. destruct (Hback _ Hi) as [Hi0 Hi1]. assert (wrote st (d_slot a) p) as Hwr by (by exists i, ss).
        destruct (proj2 (Hw1 _ _) (or_introl Hwr)) as (i' & ss' & Hi' & Hss' & His'). assert (i' = i) as -> by congruence. by exists i, ss'.
  - intros Hq p o.
    assert (forall s i, st_index s !! o = Some i -> listed s p o <-> i ∈ own (st_owners s) p) as Hl by (intros s i Hs'; unfold listed; rewrite Hs'; naive_solver).
    destruct (decide (o = d_pubkey a)) as [->|Hp].
    + rewrite (plain_listed F s1 s2 si c wa Ho1 Hse1 _ _ _ p Hj Hb1), Hd1. rewrite (owned_by_iff _ _ _ _ _ _ _ (Hl s1 j Hj)). rewrite (owned_by_iff _ _ _ _ _ _ _ (D7 _ _ p Hj)).
      rewrite (Hl t2 k Hk2), (D7' _ _ p Hk2). rewrite decide_True, decide_True by done. destruct Hcase as [(i & b & Hi & Hb & He)|(Hi & He & He')].
      * destruct (Hold _ _ Hi Hb) as [-> ->]. rewrite He, (plain_entry F st t1 si c wa Hok Hse _ _ _ Hi Hb), (Hnd _ _ Hi Hb).
        destruct (Hpu i b Hi Hb) as (_ & P2 & P3 & P4). fold (listed st p (d_pubkey a)). fold (listed t1 p (d_pubkey a)).
        assert (listed t1 p (d_pubkey a) <-> owned_by F b (wa !! i) c p (listed st p (d_pubkey a))) as Hlt1.
        { rewrite (plain_listed F st t1 si c wa Hok Hse _ _ _ p Hi Hb), (Hnd _ _ Hi Hb). naive_solver. }
        rewrite (owned_after_iff _ _ _ _ _ _ _ Hlt1). rewrite <- (owned_by_swap F G b (bc_update b a Processed).1 (settled F c (wa !! i) b).1 a (wa !! i) c p (listed st p (d_pubkey a))); [naive_solver|intros s Hw; by apply P2|done|done|].
        intros Hf s y x Hw Hpr. destruct (Hc Hf) as (_ & _ & _ & Hown). apply (Hown Hq).
        -- unfold version_at. rewrite Hi. simpl. rewrite Hb. simpl. apply promote_report_in in Hpr as (_ & Hg & _). rewrite Hf in Hg. exact Hg.
        -- unfold version_at. rewrite (Hixs _ Hi). simpl. rewrite (plain_account F st t1 si c wa Hok Hse _ _ _ Hi Hb), Hw. simpl. pose proof (Hnd _ _ Hi Hb) as Hdd. rewrite Hw in Hdd. cbn [settled] in Hdd.
           unfold prom_after in *. destruct (bc_promote b s c) as [b' o'] eqn:Hbp. cbn [snd] in Hpr. subst o'. destruct (drops F c x y); [done|]. cbn [fst]. rewrite Hf in Hbp. clear -Hbp.
           unfold bc_promote in Hbp. destruct (sm_get s (bc_proc b)) as [u|]; [|done]. destruct (bc_fin b) as [w|]; [destruct (d_slot w <? d_slot u)|]; simplify_eq; done.
      * rewrite He, He', (Hnew Hi). cbn [owned_by]. naive_solver.
    + destruct (st_index st !! o) as [i|] eqn:Hi.
      * destruct (Hoth o i Hp Hi) as (b & Hb & Hi1 & Hb1'). rewrite (plain_listed F s1 s2 si c wa Ho1 Hse1 _ _ _ p Hi1 Hb1').
        assert (listed t2 p o <-> listed t1 p o) as ->.
        { destruct (D1' _ Hp) as [Hi2 _]. unfold listed. rewrite Hi2. split; intros (m & Hm & Hmm); exists m; (split; [done|]).
          - pose proof (D7' o m p ltac:(congruence)) as Hd7. rewrite decide_False in Hd7 by done. by apply Hd7.
          - pose proof (D7' o m p ltac:(congruence)) as Hd7. rewrite decide_False in Hd7 by done. by apply Hd7. }
        rewrite (plain_listed F st t1 si c wa Hok Hse _ _ _ p Hi Hb). rewrite (owned_by_iff F b (wa !! i) c p (listed s1 p o) (listed st p o)); [done|].
        rewrite (Hl s1 i Hi1), (D7 _ _ p Hi1), decide_False by done. by rewrite (Hl st i Hi).
      * destruct (D1' _ Hp) as [Hi2 _]. unfold listed. rewrite (Hix2 _ Hp), Hi2, (se_none _ _ _ _ _ _ Hse _ Hi). naive_solver.
Qed.

Lemma visited_frame sl sl1 si c t x : (forall y, y <> t -> sl !! y = sl1 !! y) -> ~ visited sl si c t -> visited sl1 si c x -> visited sl si c x.
Proof.
  intros Hag Ht Hx. assert (forall s, visited sl si c s -> s <> t) as Hne by (intros s Hs ->; done).
  assert (forall s, visited sl si c s -> parent_of sl si s = parent_of sl1 si s) as Hpar by (intros s Hs; unfold parent_of; by rewrite (Hag s (Hne _ Hs))).
  assert (forall s, on_chain sl1 si c s -> on_chain sl si c s) as Hch.
  { intros s Hs. induction Hs as [ss Hss Hc|s p ss Hs IH Hnp Hp Hss Hc].
    - eapply chain_start; [|exact Hc]. rewrite Hag; [done|]. apply Hne, v_start.
    - rewrite <- Hpar in Hp by (by apply visited_chain). eapply chain_up; [exact IH|done|exact Hp| |exact Hc]. rewrite Hag; [done|]. apply Hne. by eapply v_up. }
  destruct Hx as [|s p Hs Hnp Hp]; [apply v_start|]. apply Hch in Hs. rewrite <- Hpar in Hp by (by apply visited_chain). by eapply v_up.
Qed.
Lemma still_after G st a s1 r s : st_ok st -> update_account G st a Processed = Done (s1, r) -> still_processed st s -> still_processed s1 s.
Proof.
  intros Hok Hu Hs k. destruct (delivery _ _ _ _ _ _ Hok Hu) as [_ _ _ _ D5 _ _]. specialize (D5 s). unfold still_processed, slot_commit in *.
  destruct (st_slots s1 !! s) as [ss1|]; [|done]. simpl in *. intros [= <-]. destruct (st_slots st !! s) as [ss|]; simpl in *.
  - apply Hs. f_equal. assert (stage ss1 = stage ss) as He by (destruct (decide _); congruence). injection He as -> _. done.
  - destruct (decide _); [|done]. injection D5 as -> _. done.
Qed.
Lemma batch_overtake E F si c us : c <> Finalized -> forall st, st_ok st -> st_kept st -> Forall (fun u => ~ visited (st_slots st) si c (d_slot u.2) /\ still_processed st (d_slot u.2)) us ->
  exists s1 s2 l t1 t2, run E st (batch Processed us) = Done s1 /\ process_slot F s1 si c = Done (s2, l) /\
    process_slot F st si c = Done (t1, l) /\ run E t1 (batch Processed us) = Done t2 /\ st_ok s2 /\ st_ok t2 /\ alike true s2 t2.
Proof.
  intros Hc. induction us as [|u us IH]; intros st Hok HK Hall.
  { destruct (process_slot_spec F st si c Hok) as (t1 & _ & wa & Ht & _ & _ & Hse). exists st, t1, (reports F st c (map_to_list wa)), t1, t1. pose proof (se_ok _ _ _ _ _ _ Hse). split_and!; [done..|apply alike_refl]. }
  apply Forall_cons in Hall as [[Hv Hk] Hall]. destruct (update_account_cases u.1 st u.2 Processed Hok) as (u1 & r & Hu & _). pose proof (update_ok _ _ _ _ _ _ Hok Hu) as Ho1.
  destruct (IH u1 Ho1 (kept_upd _ _ _ _ _ _ Hok HK Hu)) as (s1 & s2 & l & v1 & v2 & H1 & H2 & H3 & H4 & Hs2 & Hv2 & Hal).
  { eapply Forall_impl; [exact Hall|]. intros w [Hw1 Hw2]. split; [|exact (still_after _ _ _ _ _ _ Hok Hu Hw2)]. intros Hw. apply Hw1. eapply visited_frame; [|exact Hv|exact Hw].
    intros y Hy. symmetry. exact (update_slots _ _ _ _ _ _ _ Hok Hu Hy). }
  destruct (process_slot_spec F st si c Hok) as (t1 & _ & wa & Ht & _ & _ & Hse). pose proof (se_ok _ _ _ _ _ _ Hse) as Hot.
  destruct (update_account_cases u.1 t1 u.2 Processed Hot) as (w1 & r' & Hu' & _). pose proof (update_ok _ _ _ _ _ _ Hot Hu') as How1.
  destruct (overtake true F u.1 st u.2 si c _ _ _ _ _ _ _ _ Hok HK Hv Hk ltac:(intros; by destruct Hc) Hu H3 Ht Hu') as (Hal1 & Hl & _). rewrite <- Hl in Ht.
  assert (st_ok v1) as Hov1. { destruct (process_slot_spec F u1 si c Ho1) as (z & _ & ? & Hz & _ & _ & Hse'). rewrite Hz in H3. injection H3 as <- _. exact (se_ok _ _ _ _ _ _ Hse'). }
  destruct (batch_run Processed E us w1 How1) as (t2 & Ht2 & Hot2).
  exists s1, s2, l, t1, t2. split_and!; [simpl; by rewrite Hu|done|done|simpl; by rewrite Hu'|done|done|].
  eapply alike_trans; [exact Hs2|exact Hv2|exact Hot2|exact Hal|]. exact (batch_alike _ _ _ _ _ _ _ _ Hov1 How1 Hal1 H4 Ht2).
Qed.

Lemma newer_unvisited sl si c t : descending sl si c -> si_slot si < t -> ~ visited sl si c t.
Proof.
  intros Hd Hlt. assert (forall s, on_chain sl si c s -> s <= si_slot si) as Hle.
  { intros s Hs. induction Hs as [|s p ss Hs IH Hnp Hp Hss Hc']; [lia|]. pose proof (Hd _ _ Hs Hp). lia. }
  intros Hv. destruct Hv as [|s p Hs Hnp Hp]; [lia|]. pose proof (Hd _ _ Hs Hp). pose proof (Hle _ Hs). lia.
Qed.

(** ** The theorems *)
(** An update at processed for a slot the notification does not look at, not known above processed: whichever comes first, both get the same answers
    (the same accounts are reported to subscribers), and no later requests, notifications, loads or snapshots tell the two stores apart. *)
Theorem C109_overtake : forall E F G st a si c,
  reachable E st -> c <> Finalized -> ~ visited (st_slots st) si c (d_slot a) -> still_processed st (d_slot a) ->
  exists s1 s2 t1 t2 r l, update_account G st a Processed = Done (s1, r) /\ process_slot F s1 si c = Done (s2, l) /\
    process_slot F st si c = Done (t1, l) /\ update_account G t1 a Processed = Done (t2, r) /\ forall h, indistinct E s2 t2 h.
Proof.
  intros E F G st a si c Hr Hc Hv Hk. pose proof (reachable_ok _ _ Hr) as Hok.
  destruct (update_account_cases G st a Processed Hok) as (s1 & r & Hu & _). pose proof (update_ok _ _ _ _ _ _ Hok Hu) as Ho1.
  destruct (process_slot_spec F s1 si c Ho1) as (s2 & _ & wa1 & Hs & _ & _ & Hse1). destruct (process_slot_spec F st si c Hok) as (t1 & _ & wa & Ht & _ & _ & Hse).
  pose proof (se_ok _ _ _ _ _ _ Hse) as Hot. destruct (update_account_cases G t1 a Processed Hot) as (t2 & r' & Hu' & _).
  destruct (overtake true F G st a si c _ _ _ _ _ _ _ _ Hok (reachable_kept _ _ Hr) Hv Hk ltac:(intros; by destruct Hc) Hu Hs Ht Hu') as (Hal & Hl & Hrr). rewrite <- Hl in Ht. rewrite <- Hrr in Hu'.
  exists s1, s2, t1, t2, r, (reports F s1 c (map_to_list wa1)). split_and!; [done..|]. intros h.
  apply (alike_indistinct true); [exact (se_ok _ _ _ _ _ _ Hse1)|exact (update_ok _ _ _ _ _ _ Hot Hu')|done|done].
Qed.
Print Assumptions C109_overtake.

(** The usual case: the update is of a newer slot. *)
Theorem C109_newer_slot : forall E F G st a si c,
  reachable E st -> c <> Finalized -> descending (st_slots st) si c -> si_slot si < d_slot a -> still_processed st (d_slot a) ->
  exists s1 s2 t1 t2 r l, update_account G st a Processed = Done (s1, r) /\ process_slot F s1 si c = Done (s2, l) /\
    process_slot F st si c = Done (t1, l) /\ update_account G t1 a Processed = Done (t2, r) /\ forall h, indistinct E s2 t2 h.
Proof.
  intros E F G st a si c Hr Hc Hd Hlt Hk. apply C109_overtake; [done|done|by apply newer_unvisited|done].
Qed.
Print Assumptions C109_newer_slot.

(** Finalized notifications too, if they do not remove the account: the answers are the same and single reads never tell the difference. Lists do not
    either, unless the notification takes the finalized version away from the very owner the update hands the account back to. *)
Theorem C109_finalized_newer : forall E F G st a si t1 l,
  reachable E st -> descending (st_slots st) si Finalized -> si_slot si < d_slot a -> still_processed st (d_slot a) ->
  process_slot F st si Finalized = Done (t1, l) -> (tracked st (d_pubkey a) -> tracked t1 (d_pubkey a)) ->
  exists s1 s2 t2 r, update_account G st a Processed = Done (s1, r) /\ process_slot F s1 si Finalized = Done (s2, l) /\ update_account G t1 a Processed = Done (t2, r) /\
    (forall h, (forall G' o, (G', o) ∈ h -> ~ lists o) -> indistinct E s2 t2 h) /\
    ((forall x y, version_at st (d_pubkey a) Finalized = Some x -> version_at t1 (d_pubkey a) Finalized = Some y -> d_owner x = d_owner y \/ d_owner x <> d_owner a) ->
     forall h, indistinct E s2 t2 h).
Proof.
  intros E F G st a si t1 l Hr Hd Hlt Hk Ht Htr. pose proof (reachable_ok _ _ Hr) as Hok. pose proof (newer_unvisited _ _ _ _ Hd Hlt) as Hv.
  destruct (update_account_cases G st a Processed Hok) as (s1 & r & Hu & _). pose proof (update_ok _ _ _ _ _ _ Hok Hu) as Ho1.
  destruct (process_slot_spec F s1 si Finalized Ho1) as (s2 & _ & wa1 & Hs & _ & _ & Hse1).
  assert (st_ok t1) as Hot. { destruct (process_slot_spec F st si Finalized Hok) as (z & _ & ? & Hz & _ & _ & Hse). rewrite Hz in Ht. injection Ht as <- _. exact (se_ok _ _ _ _ _ _ Hse). }
  destruct (update_account_cases G t1 a Processed Hot) as (t2 & r' & Hu' & _).
  pose proof (se_ok _ _ _ _ _ _ Hse1) as Hos. pose proof (update_ok _ _ _ _ _ _ Hot Hu') as Hot2.
  destruct (overtake false F G st a si Finalized _ _ _ _ _ _ _ _ Hok (reachable_kept _ _ Hr) Hv Hk ltac:(intros _; split_and!; done) Hu Hs Ht Hu') as (Hal & Hl & Hrr).
  exists s1, s2, t2, r. split_and!; [done|by rewrite <- Hl|by rewrite Hrr| |].
  - intros h Hh. apply (alike_indistinct false); [done|done|done|]. intros G' o Hin Ho. by destruct (Hh _ _ Hin).
  - intros Hown h. apply (alike_indistinct true); [done|done| |done].
    by destruct (overtake true F G st a si Finalized _ _ _ _ _ _ _ _ Hok (reachable_kept _ _ Hr) Hv Hk ltac:(intros _; split_and!; done) Hu Hs Ht Hu').
Qed.
Print Assumptions C109_finalized_newer.

(** Any number of updates. *)
Theorem C109_batch_overtakes : forall E F st us si c,
  reachable E st -> c <> Finalized -> Forall (fun u => ~ visited (st_slots st) si c (d_slot u.2) /\ still_processed st (d_slot u.2)) us ->
  exists s1 s2 t1 t2 l, run E st (batch Processed us) = Done s1 /\ process_slot F s1 si c = Done (s2, l) /\
    process_slot F st si c = Done (t1, l) /\ run E t1 (batch Processed us) = Done t2 /\ forall h, indistinct E s2 t2 h.
Proof.
  intros E F st us si c Hr Hc Hall. destruct (batch_overtake E F si c us Hc st (reachable_ok _ _ Hr) (reachable_kept _ _ Hr) Hall) as (s1 & s2 & l & t1 & t2 & H1 & H2 & H3 & H4 & H5 & H6 & H7).
  exists s1, s2, t1, t2, l. split_and!; [done..|]. intros h. by apply (alike_indistinct true).
Qed.
Print Assumptions C109_batch_overtakes.

(** Slot 11 (child of 10) is confirmed and reports two accounts; updates of slot 12 for one of them and for a new account come before or after. *)
Definition h109 : list (filt * op) :=
  [slt 10 9 Processed; upd (acc5 10 1) Processed; slt 11 10 Processed; upd (mk_acct 6 7 4 (bs [2]) 11 2) Processed].
Definition us109 : list (filt * acct) := [(admit_all, acc5 12 3); (admit_all, mk_acct 9 7 1 [] 12 4)].
Example C109_example : exists st s1 s2 t1 t2, reachable ext_sample st /\ descending (st_slots st) (SlotInfo 11 10 0) Confirmed /\
  Forall (fun u => ~ visited (st_slots st) (SlotInfo 11 10 0) Confirmed (d_slot u.2) /\ still_processed st (d_slot u.2)) us109 /\
  run ext_sample st (batch Processed us109) = Done s1 /\ process_slot admit_all s1 (SlotInfo 11 10 0) Confirmed = Done (s2, [acc5 10 1; mk_acct 6 7 4 (bs [2]) 11 2]) /\
  process_slot admit_all st (SlotInfo 11 10 0) Confirmed = Done (t1, [acc5 10 1; mk_acct 6 7 4 (bs [2]) 11 2]) /\ run ext_sample t1 (batch Processed us109) = Done t2 /\
  version_at s2 5 Processed = Some (acc5 12 3) /\ version_at s2 5 Confirmed = Some (acc5 10 1).
Proof.
  set (si := SlotInfo 11 10 0). set (st := final h109).
  assert (forall s, on_chain (st_slots st) si Confirmed s -> s = 11 \/ s = 10) as Hch.
  { intros s Hs. induction Hs as [|s p ss Hs IH Hnp Hp Hss Hc']; [by left|]. destruct IH as [->| ->]; vm_compute in Hp; injection Hp as <-; [by right|]. vm_compute in Hss. discriminate Hss. }
  assert (descending (st_slots st) si Confirmed) as Hd.
  { intros s p Hs Hp. destruct (Hch _ Hs) as [->| ->]; vm_compute in Hp; injection Hp as <-; lia. }
  exists st, (final (h109 ++ batch Processed us109)), (final (h109 ++ batch Processed us109 ++ [slt 11 10 Confirmed])), (final (h109 ++ [slt 11 10 Confirmed])), (final (h109 ++ slt 11 10 Confirmed :: batch Processed us109)).
  split; [exists h109; crunch|]. split; [done|]. split.
  { apply Forall_forall. intros u Hu. assert (d_slot u.2 = 12) as -> by (unfold us109 in Hu; rewrite !elem_of_cons, elem_of_nil in Hu; destruct_or?; by subst u). split.
    - intros Hv. remember 12 as t eqn:Het. destruct Hv as [|s p Hs Hnp Hp]; [done|]. pose proof (Hd _ _ Hs Hp). destruct (Hch _ Hs); lia.
    - intros k Hk. vm_compute in Hk. discriminate Hk. }
  split; [crunch|]. split; [crunch|]. split; [crunch|]. split; [crunch|]. split; crunch.
Qed.

(** Slot 11 is finalized and replaces the finalized version of account 5; an update of slot 12 comes before or after. *)
Definition f109 : list (filt * op) := [upd (acc5 10 1) Finalized; slt 11 10 Processed; upd (acc5 11 2) Processed].
Example C109_finalized_example : exists st s1 s2 t1 t2, reachable ext_sample st /\ descending (st_slots st) (SlotInfo 11 10 0) Finalized /\ still_processed st 12 /\
  process_slot admit_all st (SlotInfo 11 10 0) Finalized = Done (t1, [acc5 11 2]) /\ tracked st 5 /\ tracked t1 5 /\
  version_at st 5 Finalized = Some (acc5 10 1) /\ version_at t1 5 Finalized = Some (acc5 11 2) /\
  update_account admit_all st (acc5 12 3) Processed = Done (s1, true) /\ process_slot admit_all s1 (SlotInfo 11 10 0) Finalized = Done (s2, [acc5 11 2]) /\
  update_account admit_all t1 (acc5 12 3) Processed = Done (t2, true) /\ version_at s2 5 Processed = Some (acc5 12 3).
Proof.
  exists (final f109), (final (f109 ++ [upd (acc5 12 3) Processed])), (final (f109 ++ [upd (acc5 12 3) Processed; slt 11 10 Finalized])), (final (f109 ++ [slt 11 10 Finalized])), (final (f109 ++ [slt 11 10 Finalized; upd (acc5 12 3) Processed])).
  split; [exists f109; crunch|]. split.
  { intros s p Hs Hp. assert (s = 11 \/ s = 10) as [->| ->]; [|vm_compute in Hp; injection Hp as <-; lia|vm_compute in Hp; try discriminate Hp; injection Hp as <-; lia].
    clear Hp. induction Hs as [|s p' ss Hs IH Hnp Hp Hss Hc']; [by left|]. destruct IH as [->| ->]; vm_compute in Hp; [injection Hp as <-; by right|discriminate Hp]. }
  split; [intros k Hk; vm_compute in Hk; discriminate Hk|]. split; [crunch|]. split; [exists 0%nat; crunch|]. split; [exists 0%nat; crunch|].
  split; [crunch|]. split; [crunch|]. split; [crunch|]. split; [crunch|]. split; crunch.
Qed.

(** The conditions are needed.  A finalized notification drops an account that was closed; an update that re-creates it in a newer slot is lost if it comes before, kept if it comes after. *)
Theorem C109_finalized_refuted : exists E F G st a si s1 s2 t1 t2 r r' l l', reachable E st /\ descending (st_slots st) si Finalized /\ si_slot si < d_slot a /\ still_processed st (d_slot a) /\
  update_account G st a Processed = Done (s1, r) /\ process_slot F s1 si Finalized = Done (s2, l) /\
  process_slot F st si Finalized = Done (t1, l') /\ update_account G t1 a Processed = Done (t2, r') /\
  get_account s2 (d_pubkey a) Processed = Done (ROk None) /\ get_account t2 (d_pubkey a) Processed = Done (ROk (Some a)).
Proof.
  set (h := [upd (acc5 10 1) Finalized; slt 11 10 Processed; upd (closed5 11 2) Processed]). set (a := acc5 12 3). set (si := SlotInfo 11 10 0).
  exists ext_sample, admit_all, admit_all, (final h), a, si, (final (h ++ [upd a Processed])), (final (h ++ [upd a Processed; slt 11 10 Finalized])), (final (h ++ [slt 11 10 Finalized])), (final (h ++ [slt 11 10 Finalized; upd a Processed])),
    true, true, [closed5 11 2], [closed5 11 2].
  split; [exists h; crunch|]. split.
  { intros s p Hs Hp. assert (s = 11 \/ s = 10) as [->| ->]; [|vm_compute in Hp; injection Hp as <-; lia|vm_compute in Hp; try discriminate Hp; injection Hp as <-; lia].
    clear Hp. induction Hs as [|s p' ss Hs IH Hnp Hp Hss Hc']; [by left|]. destruct IH as [->| ->]; vm_compute in Hp; [injection Hp as <-; by right|discriminate Hp]. }
  split; [done|]. split; [intros k Hk; vm_compute in Hk; discriminate Hk|]. split; [crunch|]. split; [crunch|]. split; [crunch|]. split; [crunch|]. split; crunch.
Qed.
Print Assumptions C109_finalized_refuted.
(** The account's owner is 7 at finalized, 8 in the slot being finalized and 7 again in the update: the list of 7 loses it if the update comes before. *)
Theorem C109_handed_back_refuted : exists E F G st a si s1 s2 t1 t2 r l, reachable E st /\ descending (st_slots st) si Finalized /\ si_slot si < d_slot a /\ still_processed st (d_slot a) /\
  tracked st (d_pubkey a) /\ tracked t1 (d_pubkey a) /\
  update_account G st a Processed = Done (s1, r) /\ process_slot F s1 si Finalized = Done (s2, l) /\
  process_slot F st si Finalized = Done (t1, l) /\ update_account G t1 a Processed = Done (t2, r) /\
  get_account s2 (d_pubkey a) Processed = Done (ROk (Some a)) /\ get_account t2 (d_pubkey a) Processed = Done (ROk (Some a)) /\
  get_program_accounts E F s2 (d_owner a) None Processed = Done (ROk []) /\ get_program_accounts E F t2 (d_owner a) None Processed = Done (ROk [a]).
Proof.
  set (h := [upd (acc5 10 1) Finalized; slt 11 10 Processed; upd (mk_acct 5 8 1 (bs [1;8]) 11 2) Processed]). set (a := acc5 12 3). set (si := SlotInfo 11 10 0).
  exists ext_sample, admit_all, admit_all, (final h), a, si, (final (h ++ [upd a Processed])), (final (h ++ [upd a Processed; slt 11 10 Finalized])), (final (h ++ [slt 11 10 Finalized])), (final (h ++ [slt 11 10 Finalized; upd a Processed])),
    true, [mk_acct 5 8 1 (bs [1;8]) 11 2].
  split; [exists h; crunch|]. split.
  { intros s p Hs Hp. assert (s = 11 \/ s = 10) as [->| ->]; [|vm_compute in Hp; injection Hp as <-; lia|vm_compute in Hp; try discriminate Hp; injection Hp as <-; lia].
    clear Hp. induction Hs as [|s p' ss Hs IH Hnp Hp Hss Hc']; [by left|]. destruct IH as [->| ->]; vm_compute in Hp; [injection Hp as <-; by right|discriminate Hp]. }
  split; [done|]. split; [intros k Hk; vm_compute in Hk; discriminate Hk|]. split; [exists 0%nat; crunch|]. split; [exists 0%nat; crunch|].
  split; [crunch|]. split; [crunch|]. split; [crunch|]. split; [crunch|]. split; [crunch|]. split; [crunch|]. split; crunch.
Qed.
Print Assumptions C109_handed_back_refuted.
(** A new account in the very slot that is announced: confirmed if the update comes first; otherwise it stays at processed. *)
Theorem C109_own_slot_refuted : exists E F G st a si s1 s2 t1 t2 r r' l l', reachable E st /\ d_slot a = si_slot si /\ still_processed st (d_slot a) /\
  update_account G st a Processed = Done (s1, r) /\ process_slot F s1 si Confirmed = Done (s2, l) /\
  process_slot F st si Confirmed = Done (t1, l') /\ update_account G t1 a Processed = Done (t2, r') /\
  version_at s2 (d_pubkey a) Confirmed = Some a /\ version_at t2 (d_pubkey a) Confirmed = None /\ l <> l'.
Proof.
  set (h := [slt 11 10 Processed]). set (a := acc5 11 3).
  exists ext_sample, admit_all, admit_all, (final h), a, (SlotInfo 11 10 0), (final (h ++ [upd a Processed])), (final (h ++ [upd a Processed; slt 11 10 Confirmed])), (final (h ++ [slt 11 10 Confirmed])), (final (h ++ [slt 11 10 Confirmed; upd a Processed])),
    true, true, [a], [].
  split; [exists h; crunch|]. split; [done|]. split; [intros k Hk; vm_compute in Hk; congruence|]. split; [crunch|]. split; [crunch|]. split; [crunch|]. split; [crunch|]. split; [crunch|]. split; [crunch|]. done.
Qed.
Print Assumptions C109_own_slot_refuted.
