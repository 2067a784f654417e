(** Theorems about pending token accounts: C43, C44, C45. *)
From Verif Require Import Base SMap DataModel TokenModel TokenUtilsModel TokenPendModel TokenPendSpec TokenPendProofs.

(** The calls made on the pending store. *)
Inductive pd_op :=
| PInsert (pk : pubkey) (a : tpa) (wv slot : N)
| PSlotInfo (si : slot_info)
| PFinalize (slot : N).
Definition pd_do (p : pend) (o : pd_op) : pend :=
  match o with
  | PInsert pk a wv slot => (pd_insert p pk a wv slot).1
  | PSlotInfo si => pd_slot_info p si
  | PFinalize slot => (pd_finalize p slot).1
  end.
Definition pd_run (l : list pd_op) : pend := foldl pd_do [] l.
(** Announced parents come before their slots. *)
Definition announced_before (l : list pd_op) : Prop := forall si, PSlotInfo si ∈ l -> si_parent si < si_slot si.

Lemma pd_do_sorted p o : sm_sorted p -> sm_sorted (pd_do p o).
Proof.
  intros Hs. destruct o; simpl; [by apply pd_insert_sorted|by apply pd_slot_info_sorted|by apply finalize_spec].
Qed.
Lemma pd_run_sorted l : sm_sorted (pd_run l).
Proof.
  unfold pd_run. assert (sm_sorted ([] : pend)) as H by constructor. revert H. generalize ([] : pend).
  induction l as [|o l IH]; intros p Hs; simpl; [done|]. apply IH. by apply pd_do_sorted.
Qed.
Lemma pd_run_snoc l o : pd_run (l ++ [o]) = pd_do (pd_run l) o.
Proof. unfold pd_run. by rewrite foldl_app. Qed.

(** What one call does to versions and parents. *)
Lemma insert_version p pk a wv slot s k v : sm_sorted p ->
  version (pd_insert p pk a wv slot).1 s k v <->
    if decide (s = slot /\ k = pk) then
      (v = (a, wv) /\ forall v', version p s k v' -> v'.2 < wv) \/ (version p s k v /\ wv <= v.2)
    else version p s k v.
Proof.
  intros Hs. pose proof (pd_insert_sorted p pk a wv slot Hs) as Hs'.
  destruct (decide (s = slot /\ k = pk)) as [[-> ->]|Hne]; rewrite (version_get p Hs), (version_get _ Hs'); unfold pd_insert.
  - setoid_rewrite (version_get p Hs). destruct (sm_get slot p) as [b|] eqn:Hb.
    + destruct (ps_accounts b !! pk) as [[a0 w]|] eqn:Hv; [destruct (N.ltb_spec w wv) as [Hlt|Hge]|]; simpl.
      * rewrite sm_get_put. split.
        -- intros (b' & [= <-] & Hx). simpl in Hx. rewrite lookup_insert in Hx. injection Hx as <-. left. split; [done|].
           intros v' (b' & Hb' & Hv'). simplify_eq. done.
        -- intros [[-> _]|[(b' & Hb' & Hv') Hle]]; [|simplify_eq; simpl in *; lia].
           eexists. split; [done|]. simpl. by rewrite lookup_insert.
      * rewrite Hb. split.
        -- intros (b' & Hb' & Hv'). simplify_eq. right. simpl. eauto.
        -- intros [[-> Hx]|[(b' & Hb' & Hv') Hle]]; [|by exists b']. assert ((a0, w).2 < wv); [apply Hx; exists b; done|simpl in *; lia].
      * rewrite sm_get_put. split.
        -- intros (b' & [= <-] & Hx). simpl in Hx. rewrite lookup_insert in Hx. injection Hx as <-. left. split; [done|].
           intros v' (b' & Hb' & Hv'). simplify_eq.
        -- intros [[-> _]|[(b' & Hb' & Hv') Hle]]; [|simplify_eq]. eexists. split; [done|]. simpl. by rewrite lookup_insert.
    + simpl. rewrite sm_get_put. split.
      * intros (b' & [= <-] & Hx). simpl in Hx. rewrite lookup_singleton in Hx. injection Hx as <-. left. split; [done|].
        intros v' (b' & Hb' & Hv'). simplify_eq.
      * intros [[-> _]|[(b' & Hb' & Hv') Hle]]; [|simplify_eq]. eexists. split; [done|]. simpl. by rewrite lookup_singleton.
  - destruct (decide (s = slot)) as [->|Hns].
    2:{ repeat case_match; simpl; by rewrite ?sm_get_put_ne by congruence. }
    assert (k <> pk) by naive_solver. destruct (sm_get slot p) as [b|] eqn:Hb.
    + destruct (ps_accounts b !! pk) as [[a0 w]|] eqn:Hv; [destruct (N.ltb_spec w wv) as [Hlt|Hge]|]; simpl; rewrite ?sm_get_put, ?Hb; try done;
        (split; intros (b' & Hb' & Hv'); simplify_eq; simpl in *;
         [rewrite lookup_insert_ne in Hv' by done; eauto|eexists; split; [done|]; simpl; by rewrite lookup_insert_ne]).
    + simpl. rewrite sm_get_put. split; intros (b' & Hb' & Hv'); simplify_eq; simpl in *. by rewrite lookup_singleton_ne in Hv'.
Qed.
Lemma insert_parent p pk a wv slot s s' : sm_sorted p -> parent (pd_insert p pk a wv slot).1 s s' <-> parent p s s'.
Proof.
  intros Hs. pose proof (pd_insert_sorted p pk a wv slot Hs) as Hs'. rewrite !parent_get by done. unfold pd_insert.
  destruct (decide (s = slot)) as [->|Hns].
  - destruct (sm_get slot p) as [b|] eqn:Hb; [|simpl; rewrite sm_get_put; naive_solver].
    destruct (ps_accounts b !! pk) as [[a0 w]|]; [destruct (w <? wv)|]; simpl; rewrite ?sm_get_put, ?Hb; try done;
      split; intros (b' & Hb' & Hp); simplify_eq; simpl in *; eauto.
  - repeat case_match; simpl; by rewrite ?sm_get_put_ne by congruence.
Qed.
Lemma slot_info_version p si s k v : sm_sorted p -> version (pd_slot_info p si) s k v <-> version p s k v.
Proof.
  intros Hs. pose proof (pd_slot_info_sorted p si Hs) as Hs'. rewrite !version_get by done. unfold pd_slot_info.
  destruct (decide (s = si_slot si)) as [->|Hns].
  - destruct (sm_get (si_slot si) p) as [b|] eqn:Hb; rewrite sm_get_put; split; intros (b' & Hb' & Hv); simplify_eq; simpl in *; eauto.
  - case_match; by rewrite sm_get_put_ne by congruence.
Qed.
Lemma slot_info_parent p si s s' : sm_sorted p -> parent (pd_slot_info p si) s s' <->
  if decide (s = si_slot si) then present p s /\ s' = si_parent si else parent p s s'.
Proof.
  intros Hs. pose proof (pd_slot_info_sorted p si Hs) as Hs'.
  destruct (decide (s = si_slot si)) as [->|Hns]; rewrite ?(parent_get _ Hs), ?(present_get _ Hs), (parent_get _ Hs'); unfold pd_slot_info.
  - destruct (sm_get (si_slot si) p) as [b|] eqn:Hb; rewrite sm_get_put; split.
    + intros (b' & [= <-] & Hp). simpl in Hp. injection Hp as <-. eauto.
    + intros [_ ->]. eauto.
    + intros (b' & [= <-] & Hp). done.
    + intros [[? ?] _]. done.
  - case_match; by rewrite sm_get_put_ne by congruence.
Qed.

(** ** C43 *)

(** The version of an account a slot holds is the one with the greatest write version received for that slot
    (the first of equals), whatever else is received in between. *)
Theorem C43_slot_keeps_newest : forall l pk a wv slot s k v,
  version (pd_run (l ++ [PInsert pk a wv slot])) s k v <->
    if decide (s = slot /\ k = pk) then
      (v = (a, wv) /\ forall v', version (pd_run l) s k v' -> v'.2 < wv) \/ (version (pd_run l) s k v /\ wv <= v.2)
    else version (pd_run l) s k v.
Proof. intros. rewrite pd_run_snoc. apply insert_version, pd_run_sorted. Qed.
Print Assumptions C43_slot_keeps_newest.
(** An announcement changes no version and records the parent of that slot only. *)
Theorem C43_announcement : forall l si s s' k v,
  (version (pd_run (l ++ [PSlotInfo si])) s k v <-> version (pd_run l) s k v) /\
  (parent (pd_run (l ++ [PSlotInfo si])) s s' <->
     if decide (s = si_slot si) then present (pd_run l) s /\ s' = si_parent si else parent (pd_run l) s s').
Proof.
  intros. rewrite pd_run_snoc. split; [apply slot_info_version, pd_run_sorted|apply slot_info_parent, pd_run_sorted].
Qed.
Print Assumptions C43_announcement.

(** Finalizing a slot hands over, for every account, the version nearest to the slot on its chain of recorded
    parents, and nothing else; it keeps exactly the slots above the finalized one that are not on the chain. *)
Theorem C43_finalize : forall l slot, let p := pd_run l in let r := pd_finalize p slot in
  (forall pk x, r.2 !! pk = Some x <-> nearest p pk slot x) /\
  (forall k b, (k, b) ∈ r.1 <-> (k, b) ∈ p /\ slot < k /\ ~ on_chain p slot k).
Proof.
  intros l slot p. pose proof (pd_run_sorted l) as Hs. fold p in Hs.
  destruct (finalize_spec p slot Hs) as (Hs' & H1 & H2 & H3). simpl. split; [done|]. intros k b.
  rewrite <- (sm_get_spec k b _ Hs'), <- (sm_get_spec k b _ Hs). specialize (H2 k). specialize (H3 k). split.
  - intros Hk. destruct H2 as [H2|H2]; [|congruence]. rewrite H2 in *. split; [done|].
    split; [destruct (N.lt_ge_cases slot k) as [?|?]; [done|]|intros Hc]; rewrite (proj2 H3) in Hk; auto; done.
  - intros (Hk & Hlt & Hc). destruct H2 as [->|H2]; [done|]. apply H3 in H2 as [?|[?|?]]; [congruence|lia|done].
Qed.
Print Assumptions C43_finalize.

Lemma fin_parent l slot s s' : parent (pd_finalize (pd_run l) slot).1 s s' -> parent (pd_run l) s s'.
Proof. intros (b & Hb & Hp). exists b. split; [|done]. by apply (C43_finalize l slot). Qed.
(** Recorded parents were announced. *)
Theorem C43_parents_announced : forall l s s', parent (pd_run l) s s' -> exists si, PSlotInfo si ∈ l /\ si_slot si = s /\ si_parent si = s'.
Proof.
  intros l. induction l as [|o l IH] using rev_ind; intros s s' H.
  - destruct H as (b & Hb & _). by apply elem_of_nil in Hb.
  - assert (parent (pd_run l) s s' \/ exists si, o = PSlotInfo si /\ si_slot si = s /\ si_parent si = s') as [Hp|(si & -> & ? & ?)].
    { rewrite pd_run_snoc in H. destruct o as [pk a wv slot|si|slot]; simpl in H.
      - left. by apply (insert_parent _ pk a wv slot s s' (pd_run_sorted l)) in H.
      - apply (slot_info_parent _ si s s' (pd_run_sorted l)) in H. destruct (decide _) as [->|]; [|auto]. destruct H as [_ ->]. eauto.
      - left. by eapply fin_parent. }
    + destruct (IH _ _ Hp) as (si & ? & ?). exists si. split; [|done]. set_solver.
    + exists si. split; [set_solver|done].
Qed.
Print Assumptions C43_parents_announced.
Lemma announced_parents l : announced_before l -> parents_before (pd_run l).
Proof. intros H s s' (si & Hsi & <- & <-)%C43_parents_announced. by apply H. Qed.

(** When announced parents come before their slots: what is handed over is the newest version among the slot and
    its recorded ancestors, an account is handed over exactly when one of them holds a version, every pending version at or below the
    slot is dropped and nothing above it is. *)
Theorem C43_finalize_newest_partial : forall l slot, announced_before l -> let p := pd_run l in let r := pd_finalize p slot in
  (forall pk v s, r.2 !! pk = Some (v, s) <->
     on_chain p slot s /\ version p s pk v /\ forall s' v', on_chain p slot s' -> version p s' pk v' -> s' <= s) /\
  (forall pk, is_Some (r.2 !! pk) <-> exists s v, on_chain p slot s /\ version p s pk v) /\
  (forall k b, (k, b) ∈ r.1 <-> (k, b) ∈ p /\ slot < k).
Proof.
  intros l slot Ha p r. apply announced_parents in Ha. fold p in Ha. pose proof (pd_run_sorted l) as Hs. fold p in Hs.
  destruct (C43_finalize l slot) as [H1 H2]. fold p in H1, H2. fold r in H1, H2.
  split; [|split].
  - intros pk v s. rewrite H1. split.
    + intros Hn. destruct (nearest_chain _ _ _ _ Hn). split; [done|]. split; [done|]. by apply (nearest_newest p pk slot (v, s)).
    + intros (Hc & Hv & Hmax). destruct (chain_version_nearest p pk slot s v Hs Hc Hv) as [[v' s'] Hn].
      destruct (nearest_chain _ _ _ _ Hn) as [Hc' Hv']. simpl in *.
      pose proof (nearest_newest p pk slot _ Hs Ha Hn s v Hc Hv) as Hle. pose proof (Hmax s' v' Hc' Hv') as Hge. simpl in *.
      assert (s' = s) as -> by lia.
      apply (version_get p Hs) in Hv as (b & Hb & Hbv). apply (version_get p Hs) in Hv' as (b' & Hb' & Hbv'). congruence.
  - intros pk. split.
    + intros [[v s] Hx]. apply H1 in Hx. apply nearest_chain in Hx as [? ?]. eauto.
    + intros (s & v & Hc & Hv). destruct (chain_version_nearest p pk slot s v Hs Hc Hv) as [x Hx]. exists x. by apply H1.
  - intros k b. rewrite H2. split; [naive_solver|]. intros [Hk Hlt]. split; [done|]. split; [done|].
    intros Hc. apply (chain_le p slot k Ha) in Hc. lia.
Qed.
Print Assumptions C43_finalize_newest_partial.

Definition hist1 : list pd_op :=
  [PInsert 7 (TPDeleted 7) 1 10; PInsert 8 (TPDeleted 8) 2 10; PInsert 7 (TPDeleted 7) 5 12; PInsert 9 (TPDeleted 9) 1 11; PInsert 9 (TPDeleted 9) 6 14;
   PSlotInfo (SlotInfo 12 10 9); PSlotInfo (SlotInfo 11 10 9); PSlotInfo (SlotInfo 14 12 9)].
Example C43_example_hyps :
  announced_before hist1 /\
  (pd_finalize (pd_run hist1) 12).2 !! 7 = Some ((TPDeleted 7, 5), 12) /\
  (pd_finalize (pd_run hist1) 12).2 !! 8 = Some ((TPDeleted 8, 2), 10) /\
  (pd_finalize (pd_run hist1) 12).2 !! 9 = None /\
  ((pd_finalize (pd_run hist1) 12).1).*1 = [14].
Proof.
  split; [|vm_compute; auto].
  intros si H. unfold hist1 in H. repeat (apply elem_of_cons in H as [H|H]; [try done; injection H as ->; vm_compute; done|]). by apply elem_of_nil in H.
Qed.

(** The full statement speaks of the chain of announced parents.  It fails: a slot whose only announcement comes
    before any of its accounts is recorded without its parent, so the versions of its ancestors are dropped. *)
Definition announced (l : list pd_op) (s s' : N) : Prop := exists si, PSlotInfo si ∈ l /\ si_slot si = s /\ si_parent si = s'.
Theorem C43_announced_parent_refuted : exists l slot s pk v,
  announced_before l /\ announced l slot s /\ version (pd_run l) s pk v /\
  (forall s' v', version (pd_run l) s' pk v' -> s' = s) /\
  (pd_finalize (pd_run l) slot).2 !! pk = None /\ (forall s' v', ~ version (pd_finalize (pd_run l) slot).1 s' pk v').
Proof.
  exists [PInsert 7 (TPDeleted 7) 1 10; PSlotInfo (SlotInfo 11 10 9)], 11, 10, 7, (TPDeleted 7, 1). repeat apply conj.
  - intros si H. repeat (apply elem_of_cons in H as [H|H]; [try done; injection H as ->; vm_compute; done|]). by apply elem_of_nil in H.
  - exists (SlotInfo 11 10 9). split; [right; left|done].
  - exists (PSlot {[7 := (TPDeleted 7, 1)]} None). split; [left|done].
  - intros s' v' (b & Hb & Hv). apply elem_of_cons in Hb as [[= -> ->]|Hb]; [done|].
    apply elem_of_cons in Hb as [[= -> ->]|Hb]; [done|]. by apply elem_of_nil in Hb.
  - by vm_compute.
  - intros s' v' (b & Hb & _). vm_compute in Hb. by apply elem_of_nil in Hb.
Qed.
Print Assumptions C43_announced_parent_refuted.

(** ** C44 *)

Lemma conf_read_spec p pks conf r : sm_sorted p -> pd_get p pks Confirmed conf = Done r ->
  length r = length pks /\
  forall i pk, pks !! i = Some pk -> exists g, r !! i = Some g /\ forall x, g = Some x <-> nearest p pk conf x.
Proof.
  intros Hs Hr. unfold pd_get, pd_get_fuel in Hr. cbn [mbind res_bind] in Hr.
  destruct (conf_walk _ _ _ _ _) as [r'|] eqn:Hw; [|done]. simpl in Hr. injection Hr as <-.
  assert (forall i pk, pks !! i = Some pk -> exists g, r' !! i = Some g /\ forall x, g = Some x <-> nearest p pk conf x) as H.
  { intros i pk Hi. assert (replicate (length pks) (@None (pacct * N)) !! i = Some None) as Ho.
    { apply lookup_replicate. split; [done|]. by eapply lookup_lt_Some. }
    destruct (conf_walk_spec _ _ _ _ _ _ Hs Hw i pk None Hi Ho) as (g & Hg & Hfd). exists g. split; [done|].
    intros x. rewrite (Hfd eq_refl x). split; [by intros (s & [= <-] & Hn)|]. intros Hn. eauto. }
  split; [|done]. rewrite <- (replicate_length (length pks) (@None (pacct * N))).
  clear H. revert Hw. generalize (replicate (length pks) (@None (pacct * N))). generalize (Some conf). generalize (S (length p)).
  intros fuel. induction fuel as [|fuel IH]; intros cur ret Hw; simpl in Hw; [done|].
  destruct cur as [s|]; [|by injection Hw as <-]. destruct (sm_get s p) as [b|]; [|by injection Hw as <-].
  destruct (all_found _); [injection Hw as <-; apply fill_length|]. rewrite (IH _ _ Hw). apply fill_length.
Qed.
(** A confirmed read that returns answers, for each key, the version nearest to the confirmed slot on its chain
    of recorded parents, and nothing when there is none. *)
Theorem C44_confirmed_read : forall l pks conf r, let p := pd_run l in
  pd_get p pks Confirmed conf = Done r ->
  length r = length pks /\
  forall i pk, pks !! i = Some pk -> exists g, r !! i = Some g /\ forall x, g = Some x <-> nearest p pk conf x.
Proof. intros l pks conf r p. apply conf_read_spec, pd_run_sorted. Qed.
Print Assumptions C44_confirmed_read.

Lemma proc_read_spec p pks conf r : sm_sorted p -> pd_get p pks Processed conf = Done r ->
  forall i pk, pks !! i = Some pk -> exists g, r !! i = Some g /\
    forall x, g = Some x <->
      newest_above p conf pk x \/ (forall s v, conf < s -> ~ version p s pk v) /\ nearest p pk conf x.
Proof.
  intros Hs Hr i pk Hi. unfold pd_get, pd_get_fuel in Hr.
  cbn [mbind res_bind] in Hr. destruct (proc_walk _ _ _ _ _ _) as [r'|] eqn:Hw; [|done]. simpl in Hr. injection Hr as <-.
  assert (replicate (length pks) (@None (pacct * N)) !! i = Some None) as Ho.
  { apply lookup_replicate. split; [done|]. by eapply lookup_lt_Some. }
  assert (forall x, x ∈ reverse p -> x ∈ p) as Hr1 by (intros x; by rewrite elem_of_reverse).
  assert (forall x, x ∈ p -> x.1 <= conf -> x ∈ reverse p) as Hr2 by (intros x Hx _; by rewrite elem_of_reverse).
  destruct (proc_walk_spec _ p pks conf (reverse p) _ _ Hs (sorted_reverse p Hs) Hr1 Hr2 Hw i pk None Hi Ho) as (g & Hg & H).
  exists g. split; [done|]. intros x. rewrite (H eq_refl x), newest_reverse. by setoid_rewrite version_reverse.
Qed.
(** A processed read that returns answers, for each key, the newest version in a slot above the confirmed one,
    and the confirmed answer when there is none. *)
Theorem C44_processed_read : forall l pks conf r, let p := pd_run l in
  pd_get p pks Processed conf = Done r ->
  forall i pk, pks !! i = Some pk -> exists g, r !! i = Some g /\
    forall x, g = Some x <->
      newest_above p conf pk x \/ (forall s v, conf < s -> ~ version p s pk v) /\ nearest p pk conf x.
Proof. intros l pks conf r p. apply proc_read_spec, pd_run_sorted. Qed.
Print Assumptions C44_processed_read.

Example C44_example_hyps :
  exists r r', pd_get (pd_run hist1) [7; 8; 9; 10] Confirmed 12 = Done r /\ pd_get (pd_run hist1) [7; 8; 9; 10] Processed 12 = Done r' /\
  r = [Some ((TPDeleted 7, 5), 12); Some ((TPDeleted 8, 2), 10); None; None] /\
  r' = [Some ((TPDeleted 7, 5), 12); Some ((TPDeleted 8, 2), 10); Some ((TPDeleted 9, 6), 14); None].
Proof. do 2 eexists. repeat apply conj; vm_compute; reflexivity. Qed.

(** ** C45 *)

(** Visiting as many slots as there are is enough: a walk still running then never ends. *)
Theorem C45_fuel_enough : forall l pks c conf fuel, let p := pd_run l in
  pd_get_fuel (S (length p)) p pks c conf = Done None -> pd_get_fuel fuel p pks c conf = Done None.
Proof.
  intros l pks c conf fuel p. unfold pd_get_fuel. destruct c; [| |done].
  - intros H. injection H as H. f_equal. exact (proc_walk_fuel p pks conf _ _ H fuel).
  - intros H. injection H as H. f_equal. exact (conf_walk_fuel p pks (Some conf) (replicate (length pks) None) H fuel).
Qed.
Print Assumptions C45_fuel_enough.

Lemma reads_end p pks c conf : c <> Finalized -> sm_sorted p -> acyclic p -> exists r, pd_get p pks c conf = Done r.
Proof.
  intros Hc Hs Hac. unfold pd_get, pd_get_fuel. destruct c; [| |done].
  - destruct (proc_walk_ends p pks conf (reverse p) (replicate (length pks) None) Hs Hac) as [r Hr].
    exists r. cbn [mbind res_bind]. by rewrite Hr.
  - destruct (conf_walk_ends p pks (Some conf) (replicate (length pks) None) Hs Hac) as [r Hr].
    exists r. cbn [mbind res_bind]. by rewrite Hr.
Qed.
(** Reads end whenever no slot is, through the recorded parents, its own ancestor; in particular when announced parents
    come before their slots. *)
Theorem C45_reads_end_partial : forall l pks c conf, c <> Finalized -> acyclic (pd_run l) \/ announced_before l ->
  exists r, pd_get (pd_run l) pks c conf = Done r.
Proof.
  intros l pks c conf Hc Ha. apply reads_end; [done|apply pd_run_sorted|].
  destruct Ha as [?|Ha]; [done|]. by apply before_acyclic, announced_parents.
Qed.
Print Assumptions C45_reads_end_partial.
Example C45_example_hyps : Processed <> Finalized /\ announced_before hist1.
Proof. split; [done|]. apply C43_example_hyps. Qed.

(** Not for every recorded parent relation: with slot 0 announced twice as its own parent (as the genesis slot is), a read at the
    confirmed slot 0 never ends. *)
Theorem C45_reads_end_refuted : exists l pks conf, forall fuel,
  pd_get_fuel fuel (pd_run l) pks Confirmed conf = Done None /\ pd_get_fuel fuel (pd_run l) pks Processed conf = Done None.
Proof.
  exists [PSlotInfo (SlotInfo 0 0 0); PSlotInfo (SlotInfo 0 0 0)], [7], 0. intros fuel.
  split; (apply C45_fuel_enough; vm_compute; reflexivity).
Qed.
Print Assumptions C45_reads_end_refuted.
