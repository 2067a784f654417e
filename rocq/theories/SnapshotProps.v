(** Snapshots of the account store (C29). *)
From Verif Require Import Base SMap DataModel FilterModel FilterSpec FilterProofs FilterProps BincodeModel BincodeProofs
  ByCommitModel ByCommitSpec ByCommitProofs StoreModel StoreSpec StoreProofs StoreSlot StoreViews StoreHist StoreEffects
  StoreProps.

(** Index of the entries loaded from [l], in order. *)
Record loaded (l : list acct) (st : store) : Prop := Loaded {
  lo_accounts : st_accounts st = map (fun a => bc_new a Finalized) l;
  lo_index : forall pk i, st_index st !! pk = Some i <-> exists a, l !! i = Some a /\ d_pubkey a = pk;
  lo_own : forall p i, i ∈ own (st_owners st) p <-> exists a, l !! i = Some a /\ d_owner a = p;
}.
Lemma load_loaded F l0 l st : st_ok st -> loaded l0 st -> NoDup (map d_pubkey (l0 ++ l)) ->
  (forall a, a ∈ l -> fl_sat F a = true) ->
  exists st', load_accounts F st l = Done st' /\ st_ok st' /\ loaded (l0 ++ l) st'.
Proof.
  revert l0 st. induction l as [|a l IH]; intros l0 st Hok Hlo Hnd Hs; simpl.
  { exists st. by rewrite app_nil_r. }
  assert (st_index st !! d_pubkey a = None) as Hi.
  { destruct (st_index st !! d_pubkey a) as [i|] eqn:Hi; [|done]. apply (lo_index _ _ Hlo) in Hi as (x & Hx & Hpk).
    rewrite map_app, map_cons in Hnd. apply NoDup_app in Hnd as (_ & Hd & _). exfalso. apply (Hd (d_pubkey x)).
    - apply elem_of_list_fmap. exists x. split; [done|]. by eapply elem_of_list_lookup_2.
    - rewrite Hpk. left. }
  assert (fl_sat F a = true) as Ha by (apply Hs; left).
  destruct (update_account_cases F st a Finalized Hok) as (st1 & r & Hu & Hc).
  pose proof (update_ok _ _ _ _ _ _ Hok Hu) as Hok1.
  unfold init_account. rewrite Hu. simpl.
  destruct Hc as [_ Hf|sl' c0 _ _ _|? ? ? ? ? ? ? Hi'|? ? ? ? ? ? ? Hi']; [congruence| |congruence|congruence].
  assert (length (st_accounts st) = length l0) as Hlen by (rewrite (lo_accounts _ _ Hlo); by rewrite map_length).
  specialize (IH (l0 ++ [a])). replace (l0 ++ a :: l) with ((l0 ++ [a]) ++ l) in * by (by rewrite <- app_assoc).
  apply IH; [done| |done|intros x Hx; apply Hs; by right].
  constructor; simpl.
  - by rewrite (lo_accounts _ _ Hlo), map_app.
  - intros pk i. destruct (decide (pk = d_pubkey a)) as [->|Hne].
    + rewrite lookup_insert. split.
      * intros [= <-]. exists a. split; [|done]. rewrite lookup_app_r, Hlen, Nat.sub_diag by lia. done.
      * intros (x & Hx & Hpk). apply lookup_app_Some in Hx as [Hx|[Hge Hx]].
        { assert (st_index st !! d_pubkey a = Some i) by (apply (lo_index _ _ Hlo); eauto). congruence. }
        apply list_lookup_singleton_Some in Hx as [Hx _]. f_equal. lia.
    + rewrite lookup_insert_ne by done. rewrite (lo_index _ _ Hlo). split.
      * intros (x & Hx & <-). exists x. split; [|done]. by apply lookup_app_l_Some.
      * intros (x & Hx & <-). apply lookup_app_Some in Hx as [Hx|[_ Hx]]; [eauto|].
        apply list_lookup_singleton_Some in Hx as [_ ->]. done.
  - intros p i. rewrite own_add. rewrite Hlen. destruct (decide (d_owner a = p)) as [<-|Hne].
    + rewrite elem_of_union, elem_of_singleton, (lo_own _ _ Hlo). split.
      * intros [->|(x & Hx & Ho)]; [|exists x; split; [by apply lookup_app_l_Some|done]].
        exists a. split; [|done]. rewrite lookup_app_r, Nat.sub_diag by lia. done.
      * intros (x & Hx & Ho). apply lookup_app_Some in Hx as [Hx|[Hge Hx]]; [eauto|].
        apply list_lookup_singleton_Some in Hx as [Hx _]. left. lia.
    + rewrite (lo_own _ _ Hlo). split.
      * intros (x & Hx & Ho). exists x. split; [by apply lookup_app_l_Some|done].
      * intros (x & Hx & Ho). apply lookup_app_Some in Hx as [Hx|[_ Hx]]; [eauto|].
        apply list_lookup_singleton_Some in Hx as [_ ->]. done.
Qed.
Lemma loaded_empty : loaded [] store_empty.
Proof.
  constructor; simpl; [done| |].
  - intros pk i. rewrite lookup_empty. split; [done|]. intros (a & Ha & _). by rewrite lookup_nil in Ha.
  - intros p i. unfold own. rewrite lookup_empty. simpl. split; [set_solver|]. intros (a & Ha & _). by rewrite lookup_nil in Ha.
Qed.
Lemma bc_new_final a c : bc_get (bc_new a Finalized) c = Some a.
Proof. by destruct c. Qed.
Lemma loaded_version l st pk c : NoDup (map d_pubkey l) -> loaded l st -> forall a,
  version_at st pk c = Some a <-> a ∈ l /\ d_pubkey a = pk.
Proof.
  intros Hnd Hlo a. split.
  - intros (i & b & Hi & Hb & Hg)%version_at_inv. apply (lo_index _ _ Hlo) in Hi as (x & Hx & Hpk).
    rewrite (lo_accounts _ _ Hlo), list_lookup_fmap, Hx in Hb. injection Hb as <-.
    rewrite bc_new_final in Hg. injection Hg as <-. split; [by eapply elem_of_list_lookup_2|done].
  - intros [[i Hi]%elem_of_list_lookup Hpk]. unfold version_at.
    assert (st_index st !! pk = Some i) as -> by (apply (lo_index _ _ Hlo); eauto). simpl.
    rewrite (lo_accounts _ _ Hlo), list_lookup_fmap, Hi. simpl. by rewrite bc_new_final.
Qed.
Lemma gpa_entry_commit E b b' c c' p fl : bc_get b' c' = bc_get b c -> gpa_entry E b' c' p fl = gpa_entry E b c p fl.
Proof. intros H. unfold gpa_entry, bc_get_filtered. by rewrite H. Qed.
Lemma gpa_loop_ok E accs c p fl idx : (forall i, i ∈ idx -> exists b l, accs !! i = Some b /\ gpa_entry E b c p fl = Done l) ->
  exists l, gpa_loop E accs c p fl idx = Done l.
Proof.
  induction idx as [|i idx IH]; intros H; simpl; [eauto|].
  destruct (H i) as (b & l & Hb & Hl); [left|]. rewrite Hb. simpl. rewrite Hl. simpl.
  destruct IH as [ls Hls]; [intros j Hj; apply H; by right|]. rewrite Hls. simpl. eauto.
Qed.
Lemma gpa_total E F st p fl c : fl_contains F (AFilter [] (Some p) fl) = true ->
  (forall i, i ∈ own (st_owners st) p -> exists b l, st_accounts st !! i = Some b /\ gpa_entry E b c p fl = Done l) ->
  exists l, get_program_accounts E F st p fl c = Done (ROk l).
Proof.
  intros HF H. unfold get_program_accounts. rewrite HF. unfold own in H. destruct (st_owners st !! p) as [s|]; [|eauto].
  destruct (gpa_loop_ok E (st_accounts st) c p fl (elements s)) as [l Hl].
  - intros i Hi. apply H. simpl. by apply elem_of_elements.
  - rewrite Hl. simpl. eauto.
Qed.
Lemma NoDup_map_inv {A B} (f : A -> B) l : NoDup (map f l) -> NoDup l.
Proof. apply NoDup_fmap_1. Qed.

Section round_trip.
Context (E : ext) (F : filt) (st : store) (p : pubkey) (l : list acct) (st' : store).
Hypothesis Hok : st_ok st.
Hypothesis Hl : get_program_accounts E F st p None Finalized = Done (ROk l).
Hypothesis Hok' : st_ok st'.
Hypothesis Hlo : loaded l st'.
Lemma snap_entry a : a ∈ l <-> exists i b, i ∈ own (st_owners st) p /\ st_accounts st !! i = Some b /\ bc_get b Finalized = Some a /\ d_owner a = p.
Proof using Hl.
  apply gpa_inv in Hl as (_ & H & _). rewrite H. split.
  - intros (i & b & l' & Hi & Hb & Hl' & Hin). exists i, b. destruct (gpa_entry_sound _ _ _ _ _ _ _ Hl' Hin) as (x & -> & Hg & _ & Ho & _).
    unfold gpa_entry in Hl'. rewrite Hg in Hl'. injection Hl' as Hl'. case_bool_decide; [|done]. injection Hl' as ->. done.
  - intros (i & b & Hi & Hb & Hg & Ho). exists i, b, [a]. split_and!; try done; [|left].
    unfold gpa_entry. rewrite Hg. by rewrite bool_decide_true.
Qed.
Lemma snap_query fl c l1 : fl_contains F (AFilter [] (Some p) fl) = true ->
  get_program_accounts E F st p fl Finalized = Done (ROk l1) ->
  exists l2, get_program_accounts E F st' p fl c = Done (ROk l2) /\ Permutation l2 l1.
Proof using Hok Hl Hok' Hlo.
  intros HF H1. pose proof H1 as H1'. apply gpa_inv in H1' as (_ & Hm1 & Hd1).
  assert (forall i, i ∈ own (st_owners st') p -> exists a, l !! i = Some a /\ st_accounts st' !! i = Some (bc_new a Finalized)) as Hi'.
  { intros i Hi. apply (lo_own _ _ Hlo) in Hi as (a & Ha & _). exists a. split; [done|].
    by rewrite (lo_accounts _ _ Hlo), list_lookup_fmap, Ha. }
  destruct (gpa_total E F st' p fl c HF) as [l2 H2].
  { intros i Hi. destruct (Hi' i Hi) as (a & Ha & Hb). apply elem_of_list_lookup_2 in Ha.
    apply snap_entry in Ha as (j & b & Hj & Hbj & Hg & _). destruct (Hd1 j Hj) as (b' & l' & Hb' & Hl').
    rewrite Hbj in Hb'. injection Hb' as <-. exists (bc_new a Finalized), l'. split; [done|].
    rewrite <- Hl'. apply gpa_entry_commit. by rewrite bc_new_final. }
  exists l2. split; [done|]. apply NoDup_Permutation.
  { eapply NoDup_map_inv, (gpa_nodup E F st'); done. }
  { eapply NoDup_map_inv, (gpa_nodup E F st); done. }
  pose proof H2 as H2'. apply gpa_inv in H2' as (_ & Hm2 & _). intros x. rewrite Hm1, Hm2. split.
  - intros (i & b & l' & Hi & Hb & Hl' & Hin). destruct (Hi' i Hi) as (a & Ha & Hb'). rewrite Hb in Hb'. injection Hb' as ->.
    apply elem_of_list_lookup_2 in Ha. apply snap_entry in Ha as (j & b & Hj & Hbj & Hg & _). exists j, b, l'.
    split_and!; try done. rewrite <- Hl'. symmetry. apply gpa_entry_commit. by rewrite bc_new_final.
  - intros (j & b & l' & Hj & Hb & Hl' & Hin).
    destruct (gpa_entry_sound _ _ _ _ _ _ _ Hl' Hin) as (a & -> & Hg & _ & Ho & _).
    assert (a ∈ l) as Ha by (apply snap_entry; eauto 8). apply elem_of_list_lookup in Ha as [i Hi].
    exists i, (bc_new a Finalized), [x]. split_and!; [|by rewrite (lo_accounts _ _ Hlo), list_lookup_fmap, Hi| |left].
    + apply (lo_own _ _ Hlo). eauto.
    + rewrite <- Hl'. apply gpa_entry_commit. by rewrite bc_new_final.
Qed.
End round_trip.

(** C29.  Loading the snapshot of a program into an empty store whose filters admit the program:
    - every program query, at any commitment, answers as the original's finalized query;
    - every account found by the original's finalized query reads, at any commitment, as the
      original's finalized read, and nothing else is there. *)
Theorem C29_snapshot_round_trip_partial : forall E h st F F' p bytes l,
  run E store_empty h = Done st ->
  (forall F o a, (F, o) ∈ h -> delivers o a -> acct_in_range a) -> lenN l < 2 ^ 64 ->
  create_snapshot E F st p = Done (ROk bytes) ->
  get_program_accounts E F st p None Finalized = Done (ROk l) ->
  (forall a, d_owner a = p -> fl_sat F' a = true) ->
  exists st', load_from_snapshot F' store_empty p bytes = Done (st', ROk tt) /\
    (forall fl c l1, fl_contains F (AFilter [] (Some p) fl) = true ->
       get_program_accounts E F st p fl Finalized = Done (ROk l1) ->
       exists l2, get_program_accounts E F st' p fl c = Done (ROk l2) /\ Permutation l2 l1) /\
    (forall a c, a ∈ l -> get_account st' (d_pubkey a) c = get_account st (d_pubkey a) Finalized) /\
    (forall pk, tracked st' pk <-> exists a, a ∈ l /\ d_pubkey a = pk).
Proof.
  intros E h st F F' p bytes l Hrun Hran Hlen Hsnap Hl HF.
  assert (st_ok st) as Hok by (eapply run_ok; [apply st_ok_empty|done]).
  assert (st_all acct_in_range st) as HR.
  { eapply st_all_run; [apply st_ok_empty| | |exact Hrun]; [|done]. intros i b. simpl. by rewrite lookup_nil. }
  assert (bytes = bincode_accounts l) as ->.
  { unfold create_snapshot in Hsnap. rewrite Hl in Hsnap. simpl in Hsnap. by injection Hsnap. }
  pose proof (gpa_nodup _ _ _ _ _ _ _ Hok Hl) as Hnd.
  destruct (load_loaded F' [] l store_empty st_ok_empty loaded_empty) as (st' & Hload & Hok' & Hlo); [done| |].
  { intros a Ha. apply HF. by apply (snap_entry E F st p l Hl) in Ha as (? & ? & _ & _ & _ & Ho). }
  simpl in Hlo. exists st'. split_and!.
  - unfold load_from_snapshot. rewrite unbincode_bincode; [by rewrite Hload| |done].
    apply Forall_forall. intros a Ha. apply (snap_entry E F st p l Hl) in Ha as (i & b & _ & Hb & Hg & _).
    exact (bc_all_get _ b Finalized a (so_bc _ Hok _ _ Hb) (HR _ _ Hb) Hg).
  - intros fl c l1. by apply (snap_query E F st p l st' Hok Hl Hok' Hlo).
  - intros a c Ha. rewrite !get_account_total by done.
    rewrite (proj2 (loaded_version l st' (d_pubkey a) c Hnd Hlo a)) by done.
    apply (snap_entry E F st p l Hl) in Ha as (i & b & _ & Hb & Hg & _).
    rewrite (version_at_entry st _ i b); [by rewrite Hg|by eapply entry_index|done].
  - intros pk. rewrite (tracked_processed _ _ Hok'). split.
    + intros [a Ha]. apply (loaded_version l st' pk _ Hnd Hlo) in Ha. eauto.
    + intros (a & Ha). exists a. by apply (loaded_version l st' pk _ Hnd Hlo).
Qed.
Print Assumptions C29_snapshot_round_trip_partial.
Example C29_example_hyps : exists st l, run ext_sample store_empty ex_store = Done st /\
  (forall F o a, (F, o) ∈ ex_store -> delivers o a -> acct_in_range a) /\ lenN l < 2 ^ 64 /\
  create_snapshot ext_sample admit_all st 7 = Done (ROk (bincode_accounts l)) /\
  get_program_accounts ext_sample admit_all st 7 None Finalized = Done (ROk l) /\ l = [acc5 10 1].
Proof.
  exists (final ex_store), [acc5 10 1]. split; [crunch|]. split.
  { intros F o a H Hd. unfold ex_store, upd, slt in H. rewrite !elem_of_cons, elem_of_nil in H.
    destruct_or?; simplify_eq; simpl in Hd; try done; subst a; by vm_compute. }
  split; [done|]. split_and!; crunch.
Qed.
(** Missing: accounts the finalized query does not find although they read as finalized (see
    C31_stale_delivery_hides_refuted) are lost by a snapshot. *)
Theorem C29_snapshot_loses_hidden_account_refuted : exists E h st p a bytes st',
  run E store_empty h = Done st /\ get_account st (d_pubkey a) Finalized = Done (ROk (Some a)) /\ d_owner a = p /\
  create_snapshot E admit_all st p = Done (ROk bytes) /\ load_from_snapshot admit_all store_empty p bytes = Done (st', ROk tt) /\
  get_account st' (d_pubkey a) Finalized = Done (ROk None).
Proof.
  set (h := [upd (acc5 10 1) Finalized; upd (mk_acct 5 8 1 [] 9 1) Finalized]).
  exists ext_sample, h, (final h), 7, (acc5 10 1), (bincode_accounts []), store_empty. split_and!; crunch.
Qed.
Print Assumptions C29_snapshot_loses_hidden_account_refuted.
(** Malformed bytes, in particular truncated snapshots, are reported and leave the store alone. *)
Theorem C29_malformed_snapshot_rejected : forall F st p bytes,
  unbincode_accounts bytes = None -> load_from_snapshot F st p bytes = Done (st, RErr DeserializationIssues).
Proof. intros F st p bytes H. unfold load_from_snapshot. by rewrite H. Qed.
Print Assumptions C29_malformed_snapshot_rejected.
Theorem C29_truncated_snapshot_rejected : forall E F st p bytes F' st' b1 b2,
  create_snapshot E F st p = Done (ROk bytes) -> reachable E st -> st_all acct_in_range st -> lenN (st_accounts st) < 2 ^ 64 ->
  bytes = b1 ++ b2 -> b2 <> [] -> load_from_snapshot F' st' p b1 = Done (st', RErr DeserializationIssues).
Proof.
  intros E F st p bytes F' st' b1 b2 Hsnap Hr HR Hlen Hb H2. pose proof (reachable_ok _ _ Hr) as Hok.
  unfold create_snapshot in Hsnap.
  destruct (get_program_accounts E F st p None Finalized) as [[l|]|] eqn:Hl; simpl in Hsnap; [|done|done].
  injection Hsnap as <-. unfold load_from_snapshot. rewrite (unbincode_truncated l b1 b2); [done| | |done|done].
  - apply Forall_forall. intros a Ha. apply (snap_entry E F st p l Hl) in Ha as (i & b & _ & Hb' & Hg & _).
    exact (bc_all_get _ b Finalized a (so_bc _ Hok _ _ Hb') (HR _ _ Hb') Hg).
  - eapply N.le_lt_trans; [|exact Hlen]. unfold lenN. apply inj_le || idtac.
    assert (length l <= length (st_accounts st))%nat; [|lia].
    pose proof (NoDup_map_inv _ _ (gpa_nodup _ _ _ _ _ _ _ Hok Hl)) as Hnd.
    assert (length (map (fun a => default 0%nat (st_index st !! d_pubkey a)) l) <= length (seq 0 (length (st_accounts st))))%nat as H.
    { apply submseteq_length, NoDup_submseteq.
      - apply NoDup_fmap_2_strong; [|done]. intros x y Hx Hy Hxy.
        apply (snap_entry E F st p l Hl) in Hx as (i & bi & _ & Hbi & Hgi & _).
        apply (snap_entry E F st p l Hl) in Hy as (j & bj & _ & Hbj & Hgj & _).
        rewrite (entry_index st i bi _ x Hok Hbi Hgi), (entry_index st j bj _ y Hok Hbj Hgj) in Hxy. simpl in Hxy. congruence.
      - intros i (a & -> & Ha)%elem_of_list_fmap.
        apply (snap_entry E F st p l Hl) in Ha as (j & bj & _ & Hbj & Hgj & _).
        rewrite (entry_index st j bj _ a Hok Hbj Hgj). simpl. apply elem_of_seq. apply lookup_lt_Some in Hbj. lia. }
    by rewrite map_length, seq_length in H.
Qed.
Print Assumptions C29_truncated_snapshot_rejected.
Example C29_example_truncated : exists st b1 b2, run ext_sample store_empty (take 1 [upd (acc5 10 1) Finalized]) = Done st /\
  create_snapshot ext_sample admit_all st 7 = Done (ROk (b1 ++ b2)) /\ b2 <> [] /\ st_all acct_in_range st /\ lenN (st_accounts st) < 2 ^ 64.
Proof.
  exists (final [upd (acc5 10 1) Finalized]), (take 20 (bincode_accounts [acc5 10 1])), (drop 20 (bincode_accounts [acc5 10 1])).
  split; [crunch|]. split; [crunch|]. split; [by vm_compute|]. split; [|by vm_compute].
  intros i b Hb. vm_compute in Hb. destruct i as [|i]; [|by destruct i]. injection Hb as <-.
  split_and!; simpl.
  - intros k a. destruct (k =? 10); [|done]. intros [= <-]. by vm_compute.
  - intros a [= <-]. by vm_compute.
  - intros a [= <-]. by vm_compute.
Qed.
