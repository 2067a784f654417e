(** Effect of slot processing, entry by entry; no panic; invariants over histories. *)
From Verif Require Import Base SMap DataModel FilterModel FilterSpec FilterProofs BincodeModel
  ByCommitModel ByCommitSpec ByCommitProofs StoreModel StoreSpec StoreProofs.

(** The entry is dropped when [new] replaces [prev]. *)
Definition drops (F : filt) (c : commitment) (prev new : acct) : bool :=
  bool_decide (c = Finalized) && negb (bool_decide (d_owner prev = d_owner new))
  && (is_deleted new || negb (fl_sat F new)).
Lemma drops_true F c prev new : drops F c prev new = true <->
  c = Finalized /\ d_owner prev <> d_owner new /\ (is_deleted new = true \/ fl_sat F new = false).
Proof.
  unfold drops. rewrite !andb_true_iff, orb_true_iff, !negb_true_iff, bool_decide_eq_true, bool_decide_eq_false.
  naive_solver.
Qed.
(** Entry after promotion, whether it is dropped, and what is reported. *)
Definition prom_after (F : filt) (b : bycom) (s : N) (c : commitment) : bycom * bool * option acct :=
  match bc_promote b s c with
  | (b', None) => (b', false, None)
  | (b', Some (a, None)) => (b', false, Some a)
  | (b', Some (a, Some p)) => if drops F c p a then (bc_empty, true, Some a) else (b', false, Some a)
  end.
Definition own_after (F : filt) (b : bycom) (s : N) (c : commitment) (p : pubkey) (before : Prop) : Prop :=
  match (bc_promote b s c).2 with
  | Some (a, Some prev) =>
      (before /\ ~ (c = Finalized /\ d_owner prev <> d_owner a /\ p = d_owner prev)) \/
      (p = d_owner a /\ d_owner prev <> d_owner a /\ is_deleted a = false /\ fl_sat F a = true)
  | _ => before
  end.

Lemma bc_promote_empty s c : bc_promote bc_empty s c = (bc_empty, None).
Proof. by destruct c. Qed.

Lemma promote_report_in b s c a prev : (bc_promote b s c).2 = Some (a, prev) ->
  sm_get s (bc_proc b) = Some a /\ bc_get b c = prev /\ c <> Processed.
Proof.
  rewrite bc_promote_report. destruct c; [done| |];
    (destruct (sm_get s (bc_proc b)) as [x|]; [|done]; destruct (bc_get b _) as [y|];
     [destruct (_ <? _); [|done]|]; by intros [= <- <-]).
Qed.

Lemma promote_one_spec F st out i s c b : st_ok st -> st_accounts st !! i = Some b ->
  exists st' b' del rep, promote_one F st out i s c = Done (st', out ++ option_list rep) /\
    prom_after F b s c = (b', del, rep) /\ st_ok st' /\
    st_slots st' = st_slots st /\ st_accounts st' = <[i := b']> (st_accounts st) /\
    (forall pk, st_index st' !! pk =
       if del && bool_decide (st_index st !! pk = Some i) then None else st_index st !! pk) /\
    (forall p j, j <> i -> j ∈ own (st_owners st') p <-> j ∈ own (st_owners st) p) /\
    (forall p, i ∈ own (st_owners st') p <-> own_after F b s c p (i ∈ own (st_owners st) p)).
Proof.
  intros Hok Hb. assert (i < length (st_accounts st))%nat as Hlt by (by eapply lookup_lt_Some).
  assert (bc_ok b) as Hbc by (by eapply so_bc).
  (* a generic preservation lemma for replacing the entry by [b2] without dropping it *)
  assert (forall ow2 b2, bc_ok b2 -> (b = bc_empty -> b2 = bc_empty) ->
            (forall P, bc_all P b -> bc_all P b2) -> (bc_proc b <> [] -> bc_proc b2 <> []) ->
            (forall p j, j <> i -> j ∈ own ow2 p <-> j ∈ own (st_owners st) p) ->
            st_ok (Store (st_index st) ow2 (st_slots st) (<[i:=b2]> (st_accounts st)))) as Hkeep.
  { intros ow2 b2 H1 H2 H3 H4 H5. constructor; simpl; rewrite ?insert_length.
    - by apply so_bound.
    - by apply so_inj.
    - intros j bj Hj. destruct (decide (j = i)) as [->|Hne].
      + rewrite list_lookup_insert in Hj by done. by injection Hj as <-.
      + rewrite list_lookup_insert_ne in Hj by done. by eapply so_bc.
    - intros pk j bj Hpk Hj. destruct (decide (j = i)) as [->|Hne].
      + rewrite list_lookup_insert in Hj by done. injection Hj as <-.
        destruct (so_pk _ Hok _ _ _ Hpk Hb) as [? ?]. auto.
      + rewrite list_lookup_insert_ne in Hj by done. by eapply so_pk.
    - intros j bj Hj Hno. destruct (decide (j = i)) as [->|Hne].
      + rewrite list_lookup_insert in Hj by done. injection Hj as <-. apply H2. by eapply so_orphan.
      + rewrite list_lookup_insert_ne in Hj by done. by eapply so_orphan.
    - eapply (owners_bound (st_owners st) _ i _); [by apply so_owners|done|done|done].
    - by apply so_slots. }
  set (b1 := (bc_promote b s c).1).
  assert (bc_ok b1) as Hb1 by (by apply bc_ok_promote).
  assert (b = bc_empty -> b1 = bc_empty) as Hb1e by (intros He; unfold b1; by rewrite He, bc_promote_empty).
  assert (forall P, bc_all P b -> bc_all P b1) as Hb1a by (intros P; by apply bc_all_promote).
  assert (bc_proc b <> [] -> bc_proc b1 <> []) as Hb1p.
  { unfold b1. rewrite bc_promote_proc. destruct c; auto using prune_nonempty. }
  unfold promote_one, prom_after, own_after. rewrite Hb. simpl.
  destruct (bc_promote b s c) as [b' r] eqn:Hpr. simpl in b1. subst b1. simpl.
  destruct r as [[a prev]|].
  2:{ eexists _, b', false, None. rewrite app_nil_r. split; [done|]. split_and!; try done. apply Hkeep; auto. }
  pose proof (promote_report_in b s c a prev) as Hrep. rewrite Hpr in Hrep.
  destruct (Hrep eq_refl) as (Hga & Hgp & Hcp).
  destruct prev as [prev|].
  2:{ eexists _, b', false, (Some a). split; [done|]. split_and!; try done. apply Hkeep; auto. }
  assert (exists pk, st_index st !! pk = Some i) as [pk Hpk].
  { destruct (decide (map_Exists (fun _ j => j = i) (st_index st))) as [(pk & ? & ? & ->)|Hno]; [eauto|].
    exfalso. assert (b = bc_empty) as Hbe.
    { eapply so_orphan; [exact Hok|exact Hb|]. intros pk Hpk. apply Hno. exists pk, i. done. }
    rewrite Hbe in Hga. done. }
  destruct (so_pk _ Hok _ _ _ Hpk Hb) as [Hall Hne].
  assert (d_pubkey a = pk) as Hpa by exact (proj1 Hall s a Hga).
  assert (d_pubkey prev = pk) as Hpp by exact (bc_pk_get pk b c prev Hbc Hall Hgp).
  destruct (update_owner_delete_spec F (st_owners st) prev a i c) as (ow' & del & Hud & Hdel & Hfr & Hown); [congruence|].
  assert (drops F c prev a = del) as Hdr.
  { apply eq_true_iff_eq. by rewrite drops_true, Hdel. }
  destruct (negb (bool_decide (d_owner prev = d_owner a)) || (d_lamports a =? 0)) eqn:Hcond.
  - rewrite Hud. simpl. rewrite Hdr. destruct del.
    + eexists _, bc_empty, true, (Some a). split; [done|]. split; [done|]. split; cycle 1.
      { split_and!; try done. simpl. intros pk'. rewrite Hpa.
        destruct (decide (pk' = pk)) as [->|Hnpk].
        - by rewrite lookup_delete, bool_decide_true.
        - rewrite lookup_delete_ne by done. rewrite bool_decide_false; [done|].
          intros H. apply Hnpk. by eapply so_inj. }
      constructor; simpl; rewrite ?insert_length, ?Hpa.
      * intros pk' j [_ H]%lookup_delete_Some. by eapply so_bound.
      * intros pk1 pk2 j [_ H1]%lookup_delete_Some [_ H2]%lookup_delete_Some. by eapply so_inj.
      * intros j bj Hj. destruct (decide (j = i)) as [->|Hnj].
        -- rewrite list_lookup_insert in Hj by done. injection Hj as <-. apply bc_ok_empty.
        -- rewrite list_lookup_insert_ne in Hj by done. by eapply so_bc.
      * intros pk' j bj [Hnpk Hpk']%lookup_delete_Some Hj. destruct (decide (j = i)) as [->|Hnj].
        -- destruct Hnpk. by eapply so_inj.
        -- rewrite list_lookup_insert_ne in Hj by done. by eapply so_pk.
      * intros j bj Hj Hno. destruct (decide (j = i)) as [->|Hnj].
        -- rewrite list_lookup_insert in Hj by done. by injection Hj as <-.
        -- rewrite list_lookup_insert_ne in Hj by done. eapply so_orphan; [done..|].
           intros pk' Hpk'. apply (Hno pk'). rewrite lookup_delete_Some. split; [|done]. intros <-. congruence.
      * eapply (owners_bound (st_owners st) _ i _); [by apply so_owners|done|done|done].
      * by apply so_slots.
    + eexists _, b', false, (Some a). split; [done|]. split; [done|]. split; [apply Hkeep; auto|].
      split_and!; try done.
  - apply orb_false_iff in Hcond as [Ho _]. apply negb_false_iff, bool_decide_eq_true in Ho.
    assert (drops F c prev a = false) as ->.
    { apply not_true_iff_false. rewrite drops_true. naive_solver. }
    eexists _, b', false, (Some a). split; [done|]. split; [done|]. split; [apply Hkeep; auto; done|].
    split_and!; try done. intros p. simpl. naive_solver.
Qed.

Lemma omap_ext_in {A B} (f g : A -> option B) (l : list A) :
  (forall x, x ∈ l -> f x = g x) -> omap f l = omap g l.
Proof.
  induction l as [|x l IH]; intros H; [done|]. cbn. rewrite (H x) by left. fold (omap f l). fold (omap g l).
  rewrite IH; [done|]. intros y Hy. apply H. by right.
Qed.
Lemma promote_all_spec F c l : NoDup l.*1 -> forall st out, st_ok st ->
  Forall (fun '(i, _) => (i < length (st_accounts st))%nat) l ->
  exists st' reps, promote_all F st out l c = Done (st', out ++ reps) /\ st_ok st' /\
    st_slots st' = st_slots st /\ length (st_accounts st') = length (st_accounts st) /\
    reps = omap (fun '(i, s) => b ← st_accounts st !! i; (prom_after F b s c).2) l /\
    (forall i, i ∉ l.*1 -> st_accounts st' !! i = st_accounts st !! i) /\
    (forall pk i, st_index st !! pk = Some i -> i ∉ l.*1 -> st_index st' !! pk = Some i) /\
    (forall i s b b' del rep, (i, s) ∈ l -> st_accounts st !! i = Some b -> prom_after F b s c = (b', del, rep) ->
       st_accounts st' !! i = Some b' /\
       (forall pk, st_index st !! pk = Some i -> st_index st' !! pk = if del then None else Some i) /\
       (forall p, i ∈ own (st_owners st') p <-> own_after F b s c p (i ∈ own (st_owners st) p))) /\
    (forall pk, st_index st !! pk = None -> st_index st' !! pk = None) /\
    (forall p i, i ∉ l.*1 -> i ∈ own (st_owners st') p <-> i ∈ own (st_owners st) p).
Proof.
  induction l as [|[i s] l IH]; intros Hnd st out Hok Hb.
  { exists st, []. rewrite app_nil_r. split; [done|]. split_and!; try done. intros * H. by apply elem_of_nil in H. }
  simpl in Hnd. apply NoDup_cons in Hnd as [Hni Hnd]. apply Forall_cons in Hb as [Hi Hb].
  destruct (lookup_lt_is_Some_2 _ _ Hi) as [b Hbi].
  destruct (promote_one_spec F st out i s c b Hok Hbi) as (st1 & b1 & del & rep & H1 & Hpa & Hok1 & Hsl1 & Hac1 & Hix1 & Hfr1 & Hown1).
  destruct (IH Hnd st1 (out ++ option_list rep) Hok1) as (st' & reps & H2 & Hok' & Hsl' & Hlen' & Hreps & Hacc & Hixo & Hent & Hnone & Hown).
  { rewrite Hac1, insert_length. done. }
  exists st', (option_list rep ++ reps). simpl. rewrite H1. simpl. rewrite H2. rewrite <- app_assoc. split; [done|].
  split; [done|]. split; [congruence|]. split; [rewrite Hlen', Hac1; apply insert_length|].
  assert (forall j, j <> i -> st_accounts st1 !! j = st_accounts st !! j) as Hj1.
  { intros j Hj. rewrite Hac1. by rewrite list_lookup_insert_ne. }
  split; [|split; [|split; [|split; [|split]]]].
  - rewrite Hbi. simpl. rewrite Hpa. simpl.
    assert (omap (fun '(i, s) => b ← st_accounts st1 !! i; (prom_after F b s c).2) l
          = omap (fun '(i, s) => b ← st_accounts st !! i; (prom_after F b s c).2) l) as He.
    { apply omap_ext_in. intros [j t] Hin. rewrite Hj1; [done|]. intros ->. apply Hni.
      apply elem_of_list_fmap. by exists (i, t). }
    rewrite He in Hreps. rewrite Hreps. destruct rep; done.
  - simpl. intros j [Hne Hj]%not_elem_of_cons. rewrite Hacc by done. auto.
  - simpl. intros pk j Hpk [Hne Hj]%not_elem_of_cons. apply Hixo; [|done]. rewrite Hix1.
    rewrite bool_decide_false by congruence. by rewrite andb_false_r.
  - intros j t bj b' dl rp [Heq|Hin]%elem_of_cons Hbj Hp.
    + injection Heq as -> ->. rewrite Hbi in Hbj. injection Hbj as <-. rewrite Hpa in Hp. injection Hp as <- <- <-.
      rewrite Hacc by done. rewrite Hac1, list_lookup_insert by done. split; [done|]. split.
      * intros pk Hpk. destruct del.
        -- apply Hnone. rewrite Hix1. by rewrite bool_decide_true.
        -- apply Hixo; [|done]. by rewrite Hix1.
      * intros p. rewrite Hown by done. apply Hown1.
    + assert (j <> i) as Hne.
      { intros ->. apply Hni. apply elem_of_list_fmap. by exists (i, t). }
      destruct (Hent j t bj b' dl rp Hin) as (Ha & Hb2 & Hc); [by rewrite Hj1|done|]. split; [done|]. split.
      * intros pk Hpk. apply Hb2. rewrite Hix1. rewrite bool_decide_false by congruence. by rewrite andb_false_r.
      * intros p. rewrite Hc. unfold own_after. pose proof (Hfr1 p j Hne) as Hf.
        destruct (bc_promote bj t c).2 as [[? [?|]]|]; rewrite Hf; done.
  - intros pk Hpk. apply Hnone. rewrite Hix1. rewrite bool_decide_false by congruence. by rewrite andb_false_r.
  - simpl. intros p j [Hne Hj]%not_elem_of_cons. rewrite Hown by done. by apply Hfr1.
Qed.

(** ** [process_slot_data] *)
Lemma phase_ok st si c sl wa : st_ok st -> slot_phase (st_slots st) si c = Some (sl, wa) ->
  st_ok (Store (st_index st) (st_owners st) sl (st_accounts st)) /\
  Forall (fun '(i, _) => (i < length (st_accounts st))%nat) (map_to_list wa).
Proof.
  intros Hok Hph. destruct (slot_phase_spec _ _ _ _ _ Hph) as (Hwa & Hall & _ & Hsl & Hfin). split.
  - destruct Hok as [H1 H2 H3 H4 H5 H6 H7]. constructor; simpl; try done.
    intros s ss i Hs Hi. assert (c <> Finalized \/ si_slot si <= s) as Hc.
    { destruct (decide (c = Finalized)) as [->|]; [|auto]. right. apply N.le_ngt. intros Hlt.
      by rewrite Hfin in Hs by done. }
    destruct (Hsl s Hc) as [(_ & ss0 & Hs0 & Hs1)|(_ & [He|(_ & _ & Hs1)])].
    + rewrite Hs1 in Hs. injection Hs as <-. by eapply H7.
    + rewrite He in Hs. by eapply H7.
    + rewrite Hs1 in Hs. injection Hs as <-. simpl in Hi. set_solver.
  - apply Forall_forall. intros [i s] Hin. apply elem_of_map_to_list in Hin.
    destruct (Hwa _ _ Hin) as (_ & ss & Hs & Hi). by eapply so_slots.
Qed.

(** Result of processing a slot: stated for any order in which the touched accounts are visited
    (the code iterates over a [HashMap]). *)
Record slot_effect (F : filt) (st : store) (si : slot_info) (c : commitment) (wa : gmap nat N)
    (st' : store) : Prop := SlotEffect {
  se_ok : st_ok st';
  se_len : length (st_accounts st') = length (st_accounts st);
  se_same : forall i, wa !! i = None -> st_accounts st' !! i = st_accounts st !! i;
  se_index : forall pk i, st_index st !! pk = Some i -> wa !! i = None -> st_index st' !! pk = Some i;
  se_none : forall pk, st_index st !! pk = None -> st_index st' !! pk = None;
  se_entry : forall i s b b' del rep, wa !! i = Some s -> st_accounts st !! i = Some b ->
    prom_after F b s c = (b', del, rep) ->
    st_accounts st' !! i = Some b' /\
    (forall pk, st_index st !! pk = Some i -> st_index st' !! pk = if del then None else Some i) /\
    (forall p, i ∈ own (st_owners st') p <-> own_after F b s c p (i ∈ own (st_owners st) p));
  se_own : forall p i, wa !! i = None -> i ∈ own (st_owners st') p <-> i ∈ own (st_owners st) p;
}.
Definition reports (F : filt) (st : store) (c : commitment) (l : list (nat * N)) : list acct :=
  omap (fun '(i, s) => b ← st_accounts st !! i; (prom_after F b s c).2) l.

Lemma promote_any_order F st si c sl wa l : st_ok st ->
  slot_phase (st_slots st) si c = Some (sl, wa) -> Permutation l (map_to_list wa) ->
  exists st', promote_all F (Store (st_index st) (st_owners st) sl (st_accounts st)) [] l c
    = Done (st', reports F st c l) /\ st_slots st' = sl /\ slot_effect F st si c wa st'.
Proof.
  intros Hok Hph Hperm. destruct (phase_ok st si c sl wa Hok Hph) as [Hok1 Hall].
  assert (NoDup l.*1) as Hnd. { rewrite Hperm. apply NoDup_fst_map_to_list. }
  assert (forall i, i ∉ l.*1 <-> wa !! i = None) as Hnot.
  { intros i. rewrite Hperm. rewrite <- not_elem_of_dom. split; intros H Hi; apply H.
    - apply elem_of_dom in Hi as [s Hs]. apply elem_of_list_fmap. exists (i, s). split; [done|].
      by apply elem_of_map_to_list.
    - apply elem_of_list_fmap in Hi as ([j s] & -> & Hs). apply elem_of_map_to_list in Hs. by apply elem_of_dom. }
  destruct (promote_all_spec F c l Hnd _ [] Hok1) as (st' & reps & H1 & Hok' & Hsl & Hlen & Hreps & Ha & Hb & Hc & Hd & He).
  { rewrite Forall_forall in Hall. apply Forall_forall. intros x Hx. apply Hall. by rewrite <- Hperm. }
  simpl in *. exists st'. split; [|split; [done|]].
  - rewrite H1. simpl. by rewrite Hreps.
  - constructor; try done.
    + intros i Hi. apply Ha. by apply Hnot.
    + intros pk i Hpk Hi. apply Hb; [done|]. by apply Hnot.
    + intros i s b b' del rep Hi Hbi Hp. eapply Hc; [|done|done]. rewrite Hperm. by apply elem_of_map_to_list.
    + intros p i Hi. apply He. by apply Hnot.
Qed.
Lemma process_slot_spec F st si c : st_ok st ->
  exists st' sl wa, process_slot F st si c = Done (st', reports F st c (map_to_list wa)) /\
    slot_phase (st_slots st) si c = Some (sl, wa) /\ st_slots st' = sl /\ slot_effect F st si c wa st'.
Proof.
  intros Hok. destruct (slot_phase_total (st_slots st) si c) as [[sl wa] Hph].
  destruct (promote_any_order F st si c sl wa (map_to_list wa) Hok Hph) as (st' & H1 & H2 & H3); [done|].
  exists st', sl, wa. unfold process_slot. rewrite Hph. simpl. done.
Qed.

(** ** Histories *)
Lemma load_accounts_ok F st l : st_ok st -> exists st', load_accounts F st l = Done st' /\ st_ok st'.
Proof.
  revert st. induction l as [|a l IH]; intros st Hok; simpl; [eauto|].
  destruct (update_account_cases F st a Finalized Hok) as (st1 & r & H1 & Hc).
  unfold init_account. rewrite H1. simpl. apply IH. by eapply upd_case_ok.
Qed.
Lemma step_ok E F st o st' r : st_ok st -> step E F st o = Done (st', r) -> st_ok st'.
Proof.
  intros Hok. destruct o as [a c|a|pk c|p fl c|si c|p|p b]; simpl.
  - destruct (update_account F st a c) as [[st1 r1]|] eqn:H; simpl; [|done]. intros [= <- <-]. by eapply update_ok.
  - unfold init_account. destruct (update_account F st a Finalized) as [[st1 r1]|] eqn:H; simpl; [|done].
    intros [= <- <-]. by eapply update_ok.
  - destruct (get_account st pk c); simpl; [|done]. by intros [= <- <-].
  - destruct (get_program_accounts E F st p fl c); simpl; [|done]. by intros [= <- <-].
  - destruct (process_slot_spec F st si c Hok) as (st1 & sl & wa & H1 & _ & _ & [? _ _ _ _ _ _]).
    rewrite H1. simpl. by intros [= <- <-].
  - destruct (create_snapshot E F st p); simpl; [|done]. by intros [= <- <-].
  - unfold load_from_snapshot. destruct (unbincode_accounts b) as [l|].
    + destruct (load_accounts_ok F st l Hok) as (st1 & H & ?). rewrite H. simpl. by intros [= <- <-].
    + simpl. by intros [= <- <-].
Qed.
Lemma run_ok E h st st' : st_ok st -> run E st h = Done st' -> st_ok st'.
Proof.
  revert st. induction h as [|[F o] h IH]; intros st Hok; simpl; [by intros [= <-]|].
  destruct (step E F st o) as [[st1 r]|] eqn:Hs; simpl; [|done]. apply IH. by eapply step_ok.
Qed.
Lemma reachable_ok E st : reachable E st -> st_ok st.
Proof. intros [h H]. eapply run_ok; [apply st_ok_empty|done]. Qed.
Lemma run_app E st h1 h2 : run E st (h1 ++ h2) = (st1 ← run E st h1; run E st1 h2).
Proof.
  revert st. induction h1 as [|[F o] h1 IH]; intros st; simpl; [done|].
  destruct (step E F st o) as [[st1 r]|]; simpl; [|done]. apply IH.
Qed.
Lemma reachable_step E F st o st' r : reachable E st -> step E F st o = Done (st', r) -> reachable E st'.
Proof.
  intros [h H] Hs. exists (h ++ [(F, o)]). rewrite run_app, H. simpl. rewrite Hs. done.
Qed.
Lemma reachable_run E st h st' : reachable E st -> run E st h = Done st' -> reachable E st'.
Proof. intros [h0 H0] H. exists (h0 ++ h). by rewrite run_app, H0. Qed.

(** ** No panic *)
Definition st_all (P : acct -> Prop) (st : store) : Prop :=
  forall i b, st_accounts st !! i = Some b -> bc_all P b.
Lemma st_all_upd P F st a c st' r : st_ok st -> st_all P st -> P a ->
  update_account F st a c = Done (st', r) -> st_all P st'.
Proof.
  intros Hok HP Ha H. apply update_account_inv in H; [|done].
  destruct H as [Hi Hs|sl' c0 Hi Hs Hadd|i b sl' c' b' upd ow' Hi Hb Hadd Hu Hud Hud0|i b sl' c' b' prev ow' Hi Hb Hadd Hu Hprev Hud];
    intros j bj; simpl.
  - apply HP.
  - intros [Hj|[_ Hj]]%lookup_app_Some; [by eapply HP|]. apply list_lookup_singleton_Some in Hj as [_ <-].
    rewrite bc_new_update. apply bc_all_update; [apply bc_all_empty|done].
  - assert (b' = (bc_update b a c').1) as -> by (by rewrite Hu).
    intros [(-> & <- & _)|[_ Hj]]%list_lookup_insert_Some; [|by eapply HP].
    apply bc_all_update; [by eapply HP|done].
  - intros [(-> & <- & _)|[_ Hj]]%list_lookup_insert_Some; [|by eapply HP]. apply bc_all_empty.
Qed.
Lemma st_all_slot P F st si c st' out : st_ok st -> st_all P st -> process_slot F st si c = Done (st', out) -> st_all P st'.
Proof.
  intros Hok HP H. destruct (process_slot_spec F st si c Hok) as (st1 & sl & wa & H1 & _ & _ & Hse).
  rewrite H1 in H. injection H as <- <-. intros i b' Hb'.
  destruct (wa !! i) as [s|] eqn:Hi; cycle 1.
  { rewrite (se_same _ _ _ _ _ _ Hse) in Hb' by done. by eapply HP. }
  assert (i < length (st_accounts st))%nat as Hlt.
  { rewrite <- (se_len _ _ _ _ _ _ Hse). by eapply lookup_lt_Some. }
  destruct (lookup_lt_is_Some_2 _ _ Hlt) as [b Hb].
  destruct (prom_after F b s c) as [[b2 del] rep] eqn:Hp.
  destruct (se_entry _ _ _ _ _ _ Hse _ _ _ _ _ _ Hi Hb Hp) as (H2 & _). rewrite Hb' in H2. injection H2 as ->.
  unfold prom_after in Hp. pose proof (bc_all_promote P b s c (so_bc _ Hok _ _ Hb) (HP _ _ Hb)) as Hbp.
  destruct (bc_promote b s c) as [b3 [[a [prev|]]|]]; simpl in Hbp; simplify_eq; try done.
  destruct (drops F c prev a); simplify_eq; [apply bc_all_empty|done].
Qed.
Lemma st_all_load P F st l st' : st_ok st -> st_all P st -> Forall P l -> load_accounts F st l = Done st' -> st_all P st'.
Proof.
  revert st. induction l as [|a l IH]; intros st Hok HP Hl; simpl; [by intros [= <-]|].
  apply Forall_cons in Hl as [Ha Hl]. unfold init_account.
  destruct (update_account F st a Finalized) as [[st1 r]|] eqn:Hu; simpl; [|done].
  apply IH; [by eapply update_ok|by eapply st_all_upd|done].
Qed.
(** Whatever holds of all delivered accounts holds of all kept versions. *)
Lemma st_all_step E (P : acct -> Prop) F st o st' r : st_ok st -> st_all P st -> (forall a, delivers o a -> P a) ->
  step E F st o = Done (st', r) -> st_all P st'.
Proof.
  intros Hok HP Hd. destruct o as [a c|a|pk c|p fl c|si c|p|p b]; simpl in *.
  - destruct (update_account F st a c) as [[st1 r1]|] eqn:H; simpl; [|done]. intros [= <- <-]. eapply st_all_upd; eauto.
  - unfold init_account. destruct (update_account F st a Finalized) as [[st1 r1]|] eqn:H; simpl; [|done].
    intros [= <- <-]. eapply st_all_upd; eauto.
  - destruct (get_account st pk c); simpl; [|done]. by intros [= <- <-].
  - destruct (get_program_accounts E F st p fl c); simpl; [|done]. by intros [= <- <-].
  - destruct (process_slot F st si c) as [[st1 out]|] eqn:H; simpl; [|done]. intros [= <- <-]. by eapply st_all_slot.
  - destruct (create_snapshot E F st p); simpl; [|done]. by intros [= <- <-].
  - unfold load_from_snapshot. destruct (unbincode_accounts b) as [l|].
    + destruct (load_accounts F st l) as [st1|] eqn:H; simpl; [|done]. intros [= <- <-].
      eapply st_all_load; [done|done| |done]. apply Forall_forall. intros a Ha. apply Hd. eauto.
    + simpl. by intros [= <- <-].
Qed.
Lemma st_all_run E (P : acct -> Prop) h st st' : st_ok st -> st_all P st ->
  (forall F o a, (F, o) ∈ h -> delivers o a -> P a) -> run E st h = Done st' -> st_all P st'.
Proof.
  revert st. induction h as [|[F o] h IH]; intros st Hok HP Hd; simpl; [by intros [= <-]|].
  destruct (step E F st o) as [[st1 r]|] eqn:Hs; simpl; [|done]. apply IH.
  - by eapply step_ok.
  - eapply st_all_step; [done|done| |done]. intros a. eapply Hd. left.
  - intros F' o' a Hin. eapply Hd. by right.
Qed.

Lemma gpa_entry_total E b c p fl : bc_ok b -> bc_all (usable E) b ->
  (forall l, fl = Some l -> Forall (decodable_cond E) l) -> exists l, gpa_entry E b c p fl = Done l.
Proof.
  intros Hbc Hu Hfl. unfold gpa_entry. destruct fl as [fl|]; [|eauto]. specialize (Hfl _ eq_refl).
  unfold bc_get_filtered. destruct (bc_get b c) as [a|] eqn:Hg; [|simpl; eauto].
  destruct (bc_all_get _ b c a Hbc Hu Hg) as [d Hd].
  assert (forall d', exists ok, all_r (fun f => allows E f d') fl = Done ok) as Hall.
  { intros d'. destruct (all_r (fun f => allows E f d') fl) as [ok|] eqn:H; [eauto|]. exfalso. revert H.
    apply all_r_nopanic. intros x Hx. rewrite Forall_forall in Hfl.
    destruct (allows_total E x d' (Hfl x Hx)) as [? ->]. done. }
  destruct (forallb _ _); [|simpl; eauto]. destruct fl as [|f fl]; [simpl; eauto|].
  unfold plain in Hd. destruct (d_data a) as [d0|b0 n0|b0 n0] eqn:Hda.
  - destruct (Hall d0) as [ok ->]. simpl. eauto.
  - rewrite Hd. unfold mbind, res_bind. destruct (Hall d) as [ok ->]. eauto.
  - rewrite Hd. unfold mbind, res_bind. destruct (Hall d) as [ok ->]. eauto.
Qed.
Lemma gpa_loop_total E accs c p fl idx :
  (forall i, i ∈ idx -> exists b, accs !! i = Some b /\ bc_ok b /\ bc_all (usable E) b) ->
  (forall l, fl = Some l -> Forall (decodable_cond E) l) -> exists l, gpa_loop E accs c p fl idx = Done l.
Proof.
  intros Hidx Hfl. induction idx as [|i idx IH]; simpl; [eauto|].
  destruct (Hidx i) as (b & Hb & Hbc & Hu); [left|]. rewrite Hb. simpl.
  destruct (gpa_entry_total E b c p fl Hbc Hu Hfl) as [l ->]. simpl.
  destruct IH as [ls ->]; [|simpl; eauto]. intros j Hj. apply Hidx. by right.
Qed.
Lemma gpa_total E F st p fl c : st_ok st -> st_all (usable E) st ->
  (forall l, fl = Some l -> Forall (decodable_cond E) l) -> exists r, get_program_accounts E F st p fl c = Done r.
Proof.
  intros Hok Hu Hfl. unfold get_program_accounts. destruct (fl_contains _ _); [|eauto].
  destruct (st_owners st !! p) as [s|] eqn:Hs; [|eauto].
  destruct (gpa_loop_total E (st_accounts st) c p fl (elements s)) as [l ->]; [|done|simpl; eauto].
  intros i Hi%elem_of_elements. destruct (lookup_lt_is_Some_2 (st_accounts st) i) as [b Hb]; [by eapply so_owners|].
  exists b. split; [done|]. split; [by eapply so_bc|by eapply Hu].
Qed.
Lemma get_account_total st pk c : st_ok st ->
  get_account st pk c = Done (ROk (a ← version_at st pk c; if 0 <? d_lamports a then Some a else None)).
Proof.
  intros Hok. unfold get_account, version_at. destruct (st_index st !! pk) as [i|] eqn:Hi; [|done].
  destruct (so_entry _ _ _ Hok Hi) as (b & Hb & _). simpl. rewrite Hb. simpl.
  destruct (bc_get b c) as [a|]; simpl; [|done]. by destruct (0 <? d_lamports a).
Qed.
Lemma step_total E F st o : st_ok st -> st_all (usable E) st -> op_ok E o ->
  exists st' r, step E F st o = Done (st', r).
Proof.
  intros Hok Hu Ho. destruct o as [a c|a|pk c|p fl c|si c|p|p b]; simpl in *.
  - destruct (update_account_cases F st a c Hok) as (st1 & r & -> & _). simpl. eauto.
  - unfold init_account. destruct (update_account_cases F st a Finalized Hok) as (st1 & r & -> & _). simpl. eauto.
  - rewrite get_account_total by done. simpl. eauto.
  - destruct (gpa_total E F st p fl c Hok Hu) as [r ->]; [|simpl; eauto]. intros l ->. done.
  - destruct (process_slot_spec F st si c Hok) as (st1 & sl & wa & -> & _). simpl. eauto.
  - unfold create_snapshot. destruct (gpa_total E F st p None Finalized Hok Hu) as [r ->]; [done|]. simpl. eauto.
  - unfold load_from_snapshot. destruct (unbincode_accounts b) as [l|]; [|simpl; eauto].
    destruct (load_accounts_ok F st l Hok) as (st1 & -> & _). simpl. eauto.
Qed.
Lemma op_ok_delivers E o a : op_ok E o -> delivers o a -> usable E a.
Proof.
  destruct o; simpl; try done; try (by intros ? <-).
  intros H (l & Hl & Ha). specialize (H l Hl). rewrite Forall_forall in H. auto.
Qed.
Lemma run_total E h st : st_ok st -> st_all (usable E) st -> (forall F o, (F, o) ∈ h -> op_ok E o) ->
  exists st', run E st h = Done st'.
Proof.
  revert st. induction h as [|[F o] h IH]; intros st Hok Hu Hh; simpl; [eauto|].
  assert (op_ok E o) as Ho by (eapply Hh; left).
  destruct (step_total E F st o Hok Hu Ho) as (st1 & r & Hs). rewrite Hs. simpl. apply IH.
  - by eapply step_ok.
  - eapply st_all_step; [done|done| |done]. intros a. by apply op_ok_delivers.
  - intros F' o' Hin. eapply Hh. by right.
Qed.
