(** The order in which [process_slot_data] visits the touched accounts (it iterates over a
    [HashMap], inmemory_account_store.rs 430) does not matter (C61). *)
From Verif Require Import Base SMap DataModel FilterModel FilterSpec FilterProofs FilterProps BincodeModel BincodeProofs
  ByCommitModel ByCommitSpec ByCommitProofs StoreModel StoreSpec StoreProofs StoreSlot StoreViews StoreHist StoreEffects
  StoreProps SnapshotProps.

(** [process_slot_data] visiting the touched accounts in the order [l]. *)
Definition process_slot_in_order (F : filt) (st : store) (si : slot_info) (c : commitment) (l : list (nat * N))
    : res (store * list acct) :=
  '(sl, _) ← unwrap (slot_phase (st_slots st) si c);
  promote_all F (Store (st_index st) (st_owners st) sl (st_accounts st)) [] l c.
(** [l] is a possible iteration order. *)
Definition visit_order (st : store) (si : slot_info) (c : commitment) (l : list (nat * N)) : Prop :=
  exists sl wa, slot_phase (st_slots st) si c = Some (sl, wa) /\ Permutation l (map_to_list wa).

Lemma effect_unique F st si c wa st1 st2 : st_ok st -> slot_effect F st si c wa st1 -> slot_effect F st si c wa st2 ->
  st_index st1 = st_index st2 /\ st_accounts st1 = st_accounts st2 /\ forall p, own (st_owners st1) p = own (st_owners st2) p.
Proof.
  intros Hok H1 H2.
  assert (forall i, st_accounts st1 !! i = st_accounts st2 !! i) as Hacc.
  { intros i. destruct (wa !! i) as [s|] eqn:Hw.
    - destruct (st_accounts st !! i) as [b|] eqn:Hb.
      + destruct (prom_after F b s c) as [[b' del] rep] eqn:Hp.
        destruct (se_entry _ _ _ _ _ _ H1 _ _ _ _ _ _ Hw Hb Hp) as (-> & _).
        by destruct (se_entry _ _ _ _ _ _ H2 _ _ _ _ _ _ Hw Hb Hp) as (-> & _).
      + apply lookup_ge_None in Hb. rewrite !(proj2 (lookup_ge_None _ i)); [done| |].
        * by rewrite (se_len _ _ _ _ _ _ H2).
        * by rewrite (se_len _ _ _ _ _ _ H1).
    - by rewrite (se_same _ _ _ _ _ _ H1), (se_same _ _ _ _ _ _ H2). }
  split; [|split; [by apply list_eq|]].
  - apply map_eq. intros pk. destruct (st_index st !! pk) as [i|] eqn:Hi.
    + destruct (wa !! i) as [s|] eqn:Hw.
      * destruct (so_entry _ _ _ Hok Hi) as (b & Hb & _). destruct (prom_after F b s c) as [[b' del] rep] eqn:Hp.
        destruct (se_entry _ _ _ _ _ _ H1 _ _ _ _ _ _ Hw Hb Hp) as (_ & Hx & _).
        destruct (se_entry _ _ _ _ _ _ H2 _ _ _ _ _ _ Hw Hb Hp) as (_ & Hy & _).
        by rewrite (Hx _ Hi), (Hy _ Hi).
      * by rewrite (se_index _ _ _ _ _ _ H1 _ _ Hi Hw), (se_index _ _ _ _ _ _ H2 _ _ Hi Hw).
    + by rewrite (se_none _ _ _ _ _ _ H1), (se_none _ _ _ _ _ _ H2).
  - intros p. apply set_eq. intros i. destruct (wa !! i) as [s|] eqn:Hw.
    + destruct (st_accounts st !! i) as [b|] eqn:Hb.
      * destruct (prom_after F b s c) as [[b' del] rep] eqn:Hp.
        destruct (se_entry _ _ _ _ _ _ H1 _ _ _ _ _ _ Hw Hb Hp) as (_ & _ & Hx).
        destruct (se_entry _ _ _ _ _ _ H2 _ _ _ _ _ _ Hw Hb Hp) as (_ & _ & Hy). by rewrite Hx, Hy.
      * apply lookup_ge_None in Hb.
        assert (forall st', st_ok st' -> length (st_accounts st') = length (st_accounts st) -> i ∉ own (st_owners st') p) as Hn.
        { intros st' Hok' Hlen Hin. unfold own in Hin. destruct (st_owners st' !! p) as [s'|] eqn:Hs; simpl in Hin; [|set_solver].
          pose proof (so_owners _ Hok' _ _ _ Hs Hin). lia. }
        split; intros Hin; exfalso.
        -- by apply (Hn st1 (se_ok _ _ _ _ _ _ H1) (se_len _ _ _ _ _ _ H1)).
        -- by apply (Hn st2 (se_ok _ _ _ _ _ _ H2) (se_len _ _ _ _ _ _ H2)).
    + by rewrite (se_own _ _ _ _ _ _ H1), (se_own _ _ _ _ _ _ H2).
Qed.

(** C61: all iteration orders give the same reads, queries and (up to order) the same reports. *)
Theorem C61_visit_order_irrelevant : forall E F st si c l1 l2,
  reachable E st -> visit_order st si c l1 -> visit_order st si c l2 ->
  exists st1 out1 st2 out2,
    process_slot_in_order F st si c l1 = Done (st1, out1) /\ process_slot_in_order F st si c l2 = Done (st2, out2) /\
    Permutation out1 out2 /\ st_slots st1 = st_slots st2 /\
    (forall pk k, get_account st1 pk k = get_account st2 pk k) /\
    (forall F' p fl k, get_program_accounts E F' st1 p fl k = get_program_accounts E F' st2 p fl k).
Proof.
  intros E F st si c l1 l2 Hr (sl & wa & Hph & Hl1) (sl' & wa' & Hph' & Hl2). pose proof (reachable_ok _ _ Hr) as Hok.
  rewrite Hph in Hph'. injection Hph' as <- <-.
  destruct (promote_any_order F st si c sl wa l1 Hok Hph Hl1) as (st1 & H1 & Hs1 & He1).
  destruct (promote_any_order F st si c sl wa l2 Hok Hph Hl2) as (st2 & H2 & Hs2 & He2).
  destruct (effect_unique _ _ _ _ _ _ _ Hok He1 He2) as (Hi & Ha & Ho).
  exists st1, (reports F st c l1), st2, (reports F st c l2). unfold process_slot_in_order. rewrite Hph. simpl.
  split_and!; [done|done| |congruence| |].
  - unfold reports. apply omap_Permutation. by rewrite Hl1, Hl2.
  - intros pk k. unfold get_account. by rewrite Hi, Ha.
  - intros F' p fl k. unfold get_program_accounts. destruct (fl_contains F' _); [|done]. rewrite Ha.
    specialize (Ho p). unfold own in Ho.
    destruct (st_owners st1 !! p) as [s1|], (st_owners st2 !! p) as [s2|]; simpl in Ho; subst; try done.
Qed.
Print Assumptions C61_visit_order_irrelevant.
(** The model's [process_slot] is one of these orders. *)
Theorem C61_model_is_one_order : forall F st si c st' out,
  process_slot F st si c = Done (st', out) ->
  exists l, visit_order st si c l /\ process_slot_in_order F st si c l = Done (st', out).
Proof.
  intros F st si c st' out. unfold process_slot, process_slot_in_order, visit_order.
  destruct (slot_phase (st_slots st) si c) as [[sl wa]|] eqn:Hph; simpl; [|done]. intros H.
  exists (map_to_list wa). split; [|done]. by exists sl, wa.
Qed.
Print Assumptions C61_model_is_one_order.
Definition ex_order : list (filt * op) :=
  [slt 10 9 Processed; upd (acc5 10 1) Processed; upd (mk_acct 6 8 4 (bs [2]) 10 2) Processed].
Example C61_example_hyps : exists st, run ext_sample store_empty ex_order = Done st /\
  visit_order st (SlotInfo 10 9 0) Confirmed [(0%nat, 10); (1%nat, 10)] /\
  visit_order st (SlotInfo 10 9 0) Confirmed [(1%nat, 10); (0%nat, 10)].
Proof.
  exists (final ex_order). split; [crunch|].
  assert (forall l, Permutation l [(1%nat, 10); (0%nat, 10)] -> visit_order (final ex_order) (SlotInfo 10 9 0) Confirmed l) as H.
  { intros l Hl. set (x := slot_phase (st_slots (final ex_order)) (SlotInfo 10 9 0) Confirmed).
    exists (default (∅, ∅) x).1, (default (∅, ∅) x).2. split; [crunch|].
    assert (map_to_list (default (∅, ∅) x).2 = [(0%nat, 10); (1%nat, 10)] \/ map_to_list (default (∅, ∅) x).2 = [(1%nat, 10); (0%nat, 10)]) as [-> | ->].
    { first [left; crunch | right; crunch]. }
    - rewrite Hl. by constructor.
    - done. }
  split; apply H; [by constructor|done].
Qed.
