(** C114: an account store that hears every update at least once, in any order (update_account, inmemory_account_store.rs 205-264). *)
From Verif Require Import Base SMap DataModel FilterModel FilterSpec FilterProofs FilterProps BincodeModel
  ByCommitModel ByCommitSpec ByCommitProofs StoreModel StoreSpec StoreProofs StoreSlot StoreViews StoreHist StoreEffects StoreProps ArrivalSpec AlikeProofs ArrivalProps.

(** ** One entry *)
(** Specification: the entry has the version [a] at level [c] or a newer one of its slot (the comparisons of account_data_by_commitment.rs 125-186). *)
Definition has (b : bycom) (a : acct) (c : commitment) : Prop :=
  (exists z, sm_get (d_slot a) (bc_proc b) = Some z /\ d_wv a <= d_wv z) /\ (c = Confirmed -> newer (bc_conf b) a = false).
Lemma newer_self a : newer (Some a) a = false.
Proof. simpl. by rewrite !N.ltb_irrefl, andb_false_r. Qed.
Lemma newer_step o x a : newer o x = true -> newer o a = false -> newer (Some x) a = false.
Proof. destruct o as [y|]; simpl; [|done]. intros H1 H2. apply orb_false_iff. rewrite orb_true_iff, andb_true_iff, !N.ltb_lt, N.eqb_eq in H1. apply orb_false_iff in H2 as [H2 H3]. rewrite N.ltb_ge in *. apply andb_false_iff in H3. rewrite N.eqb_neq, N.ltb_ge in H3. rewrite andb_false_iff, N.eqb_neq, N.ltb_ge. lia. Qed.
Lemma has_made b a c : c <> Finalized -> has (bc_update b a c).1 a c.
Proof.
  intros Hc. unfold has, bc_update. destruct (sm_get (d_slot a) (bc_proc b)) as [p|] eqn:Hp; [destruct (d_wv p <? d_wv a) eqn:Hw|].
  all: destruct c; [| |done]; [|destruct (newer (bc_conf b) a) eqn:Hn]; cbn [fst bc_proc bc_conf]; (split; [|intros ?; first [done|apply newer_self]]).
  all: first [exists a; split; [apply sm_get_put|lia] | exists p; split; [done|apply N.ltb_ge in Hw; lia]].
Qed.
Lemma has_kept b a x c : c <> Finalized -> has b a c -> has (bc_update b x c).1 a c.
Proof.
  intros Hc [(z & Hz & Hw) Hcf]. unfold has.
  assert (exists z', sm_get (d_slot a) (bc_proc (bc_update b x c).1) = Some z' /\ d_wv a <= d_wv z') as Hp.
  { assert (bc_proc (bc_update b x c).1 = match sm_get (d_slot x) (bc_proc b) with Some p => if d_wv p <? d_wv x then sm_put (d_slot x) x (bc_proc b) else bc_proc b | None => sm_put (d_slot x) x (bc_proc b) end) as ->.
    { unfold bc_update. destruct (sm_get (d_slot x) (bc_proc b)) as [p|]; [destruct (d_wv p <? d_wv x)|]; destruct c; [..|done]; cbn [fst bc_proc]; try (destruct (newer (bc_conf b) x)); done. }
    destruct (decide (d_slot x = d_slot a)) as [He|Hne].
    - rewrite He, Hz. destruct (d_wv z <? d_wv x) eqn:Hlt; [|by exists z]. exists x. split; [apply sm_get_put|apply N.ltb_lt in Hlt; lia].
    - exists z. split; [|done]. destruct (sm_get (d_slot x) (bc_proc b)) as [p|]; [destruct (d_wv p <? d_wv x)|]; rewrite ?sm_get_put_ne by done; done. }
  split; [done|]. intros ->. specialize (Hcf eq_refl). unfold bc_update. destruct (match sm_get (d_slot x) (bc_proc b) with Some _ => _ | None => _ end) as [pr up]. destruct (newer (bc_conf b) x) eqn:Hn; cbn [fst bc_conf]; [by eapply newer_step|done].
Qed.
Lemma has_noop b a c : c <> Finalized -> has b a c -> bc_update b a c = (b, false).
Proof.
  intros Hc [(z & Hz & Hw) Hcf]. unfold bc_update. rewrite Hz. assert (d_wv z <? d_wv a = false) as -> by (apply N.ltb_ge; lia). destruct b as [pr cf fi]. cbn [bc_proc bc_conf bc_fin] in *. destruct c; [done| |done]. by rewrite (Hcf eq_refl).
Qed.

(** ** The store *)
(** Specification: the update was taken into account: the entry has it, its slot is known at the level of the update and lists the account (inmemory_account_store.rs 110-139, 205-264). *)
Definition taken_in (c : commitment) (st : store) (a : acct) : Prop :=
  (exists b, entry_of st (d_pubkey a) = Some b /\ has b a c) /\ wrote st (d_slot a) (d_pubkey a) /\ slot_commit st (d_slot a) = Some c.
Lemma commit_stage st s : slot_commit st s = fst <$> (stage <$> st_slots st !! s).
Proof. unfold slot_commit. by destruct (st_slots st !! s). Qed.
Lemma taken_noop F c st a : c <> Finalized -> taken_in c st a -> update_account F st a c = Done (st, false).
Proof.
  intros Hc ((b & (i & Hi & Hb)%entry_some & Hh) & (j & ss & Hj & Hs & Hin) & Hk). assert (j = i) as -> by congruence. unfold slot_commit in Hk. rewrite Hs in Hk. injection Hk as Hk.
  assert (add_to_status (st_slots st) (d_slot a) i c = (st_slots st, c)) as Hadd.
  { unfold add_to_status. rewrite Hs. cbn [default from_option id]. assert ({[i]} ∪ ss_accounts ss = ss_accounts ss) as -> by set_solver. rewrite Hk. destruct ss as [k ac pa]. cbn [ss_commit ss_accounts ss_parent] in *. subst k. destruct c; [| |done]; by rewrite insert_id. }
  eapply update_unchanged; [exact Hi|exact Hb|exact Hadd|by apply has_noop|done].
Qed.
Section step.
Context (c : commitment) (st : store) (u : filt * acct) (s1 : store) (r : bool)
  (Hc : c <> Finalized) (Hok : st_ok st) (Hh : heard c st u) (Hu : update_account u.1 st u.2 c = Done (s1, r)).
Lemma taken_made : taken_in c s1 u.2.
Proof.
  split; [|split].
  - rewrite (heard_entry c st u s1 r Hc Hok Hh Hu), decide_True by done. eexists. split; [done|by apply has_made].
  - apply (heard_wrote c st u s1 r Hc Hok Hh Hu). by right.
  - rewrite commit_stage, (heard_stage c st u s1 r Hok Hh Hu), decide_True by done. destruct Hh as [_ H]. unfold slot_commit in H. destruct (st_slots st !! d_slot u.2) as [ss|]; [|done]. cbn. by rewrite (H _ eq_refl).
Qed.
Lemma taken_kept a : taken_in c st a -> taken_in c s1 a.
Proof.
  intros ((b & Hb & Hhas) & Hw & Hk). split; [|split].
  - rewrite (heard_entry c st u s1 r Hc Hok Hh Hu), Hb. destruct (decide _); (eexists; split; [done|]); [by apply has_kept|done].
  - apply (heard_wrote c st u s1 r Hc Hok Hh Hu). by left.
  - rewrite commit_stage in *. rewrite (heard_stage c st u s1 r Hok Hh Hu). destruct (decide _); [|done]. by destruct (st_slots st !! d_slot a).
Qed.
End step.

(** Specification: the first occurrences of the accounts of a list that are not in [seen]; not in the code. *)
Fixpoint first_of (seen l : list acct) : list acct :=
  match l with [] => [] | a :: l' => if decide (a ∈ seen) then first_of seen l' else a :: first_of (a :: seen) l' end.
Lemma first_elem l : forall seen x, x ∈ first_of seen l <-> x ∈ l /\ x ∉ seen.
Proof.
  induction l as [|a l IH]; intros seen x; cbn [first_of]; [rewrite elem_of_nil; naive_solver|]. destruct (decide (a ∈ seen)) as [Ha|Ha].
  - rewrite IH, elem_of_cons. split; [naive_solver|]. intros [[->|Hx] Hn]; [done|naive_solver].
  - rewrite !elem_of_cons, IH, not_elem_of_cons. destruct (decide (x = a)) as [->|]; naive_solver.
Qed.
Lemma first_nodup l : forall seen, NoDup (first_of seen l).
Proof.
  induction l as [|a l IH]; intros seen; cbn [first_of]; [constructor|]. destruct (decide (a ∈ seen)); [apply IH|]. constructor; [|apply IH]. rewrite first_elem, not_elem_of_cons. naive_solver.
Qed.
Lemma run_first E F c l : c <> Finalized -> forall seen st, st_ok st -> Forall (heard c st) (pair F <$> l) -> (forall a, a ∈ seen -> taken_in c st a) ->
  run E st (batch c (pair F <$> l)) = run E st (batch c (pair F <$> first_of seen l)).
Proof.
  intros Hc. induction l as [|a l IH]; intros seen st Hok Hall Hseen; [done|]. apply Forall_cons in Hall as [Ha Hall]. cbn [first_of].
  change (batch c (pair F <$> a :: l)) with ((F, OUpdate a c) :: batch c (pair F <$> l)). destruct (decide (a ∈ seen)) as [Hin|Hn].
  - transitivity (run E st (batch c (pair F <$> l))); [|by apply IH]. cbn [run]. unfold step. rewrite (taken_noop F c st a Hc (Hseen a Hin)). done.
  - change (batch c (pair F <$> a :: first_of (a :: seen) l)) with ((F, OUpdate a c) :: batch c (pair F <$> first_of (a :: seen) l)). cbn [run]. unfold step.
    destruct (update_account F st a c) as [[s1 r]|] eqn:Hu; [|done]. cbn. apply IH.
    + by eapply update_ok.
    + eapply Forall_impl; [exact Hall|]. intros v Hv. exact (heard_again c st (F, a) s1 r Hc Hok Ha Hu v Hv).
    + intros x [->|Hx]%elem_of_cons; [exact (taken_made c st (F, a) s1 r Hc Hok Ha Hu)|]. apply (taken_kept c st (F, a) s1 r Hc Hok Ha Hu). by apply Hseen.
Qed.
Lemma same_first l l' : (forall a, a ∈ l <-> a ∈ l') -> first_of [] l ≡ₚ first_of [] l'.
Proof. intros H. apply NoDup_Permutation; [apply first_nodup..|]. intros a. by rewrite !first_elem, H. Qed.
Lemma first_in (F : filt) l u : u ∈ pair F <$> first_of [] l -> u ∈ pair F <$> l.
Proof. intros (a & -> & [Ha _]%first_elem)%elem_of_list_fmap. apply elem_of_list_fmap. by exists a. Qed.

(** The same updates under one filter, each at least once, in any order: no later reads, updates, notifications or loads tell the two stores apart. *)
Theorem C114_at_least_once : forall E F c st l l',
  reachable E st -> c <> Finalized -> (forall a, a ∈ l <-> a ∈ l') -> Forall (heard c st) (pair F <$> l) -> told_apart (pair F <$> l) ->
  exists s s', run E st (batch c (pair F <$> l)) = Done s /\ run E st (batch c (pair F <$> l')) = Done s' /\
    forall h, (forall G o, (G, o) ∈ h -> ~ lists o) -> indistinct E s s' h.
Proof.
  intros E F c st l l' Hr Hc Hsame Hh Ht. pose proof (reachable_ok _ _ Hr) as Hok. rewrite Forall_forall in Hh.
  rewrite (run_first E F c l Hc [] st Hok), (run_first E F c l' Hc [] st Hok).
  - apply C108_arrival_order; [done|done| | |by apply fmap_Permutation, same_first].
    + apply Forall_forall. intros u Hu. by apply Hh, first_in.
    + intros u v Hu Hv. apply Ht; by apply first_in.
  - apply Forall_forall. intros u (a & -> & Ha)%elem_of_list_fmap. apply Hh, elem_of_list_fmap. exists a. by rewrite Hsame.
  - intros a Ha. by apply elem_of_nil in Ha.
  - by apply Forall_forall.
  - intros a Ha. by apply elem_of_nil in Ha.
Qed.
Print Assumptions C114_at_least_once.
(** If no account changes its owner, program queries and snapshots do not tell them apart either. *)
Theorem C114_at_least_once_lists : forall E F c st l l',
  reachable E st -> c <> Finalized -> (forall a, a ∈ l <-> a ∈ l') -> Forall (heard c st) (pair F <$> l) -> told_apart (pair F <$> l) -> one_owner c st (pair F <$> l) ->
  exists s s', run E st (batch c (pair F <$> l)) = Done s /\ run E st (batch c (pair F <$> l')) = Done s' /\ forall h, indistinct E s s' h.
Proof.
  intros E F c st l l' Hr Hc Hsame Hh Ht [Ho1 Ho2]. pose proof (reachable_ok _ _ Hr) as Hok. rewrite Forall_forall in Hh.
  rewrite (run_first E F c l Hc [] st Hok), (run_first E F c l' Hc [] st Hok).
  - apply C108_arrival_order_lists; [done|done| | | |by apply fmap_Permutation, same_first].
    + apply Forall_forall. intros u Hu. by apply Hh, first_in.
    + intros u v Hu Hv. apply Ht; by apply first_in.
    + split; [intros u v Hu Hv; apply Ho1; by apply first_in|intros u x Hu; apply Ho2; by apply first_in].
  - apply Forall_forall. intros u (a & -> & Ha)%elem_of_list_fmap. apply Hh, elem_of_list_fmap. exists a. by rewrite Hsame.
  - intros a Ha. by apply elem_of_nil in Ha.
  - by apply Forall_forall.
  - intros a Ha. by apply elem_of_nil in Ha.
Qed.
Print Assumptions C114_at_least_once_lists.
(** An update heard again later in the batch is answered with false and changes nothing. *)
Theorem C114_again_later : forall E F F' c st a st1 r us st2,
  reachable E st -> c <> Finalized -> heard c st (F, a) -> update_account F st a c = Done (st1, r) -> Forall (heard c st) us -> run E st1 (batch c us) = Done st2 ->
  update_account F' st2 a c = Done (st2, false).
Proof.
  intros E F F' c st a st1 r us st2 Hr Hc Ha Hu Hus Hrun. pose proof (reachable_ok _ _ Hr) as Hok. apply taken_noop; [done|].
  pose proof (taken_made c st (F, a) st1 r Hc Hok Ha Hu) as Ht. cbn [snd] in Ht. assert (Forall (heard c st1) us) as Hus1 by (eapply Forall_impl; [exact Hus|]; intros v Hv; exact (heard_again c st (F, a) st1 r Hc Hok Ha Hu v Hv)).
  assert (st_ok st1) as Hok1 by (by eapply update_ok). clear Hu Hok Hus Hr Ha. revert st1 Ht Hus1 Hok1 Hrun. induction us as [|[G x] us IH]; intros st1 Ht Hus Hok Hrun; [by injection Hrun as <-|].
  apply Forall_cons in Hus as [Hx Hus]. change (batch c ((G, x) :: us)) with ((G, OUpdate x c) :: batch c us) in Hrun. cbn [run] in Hrun. unfold step in Hrun.
  destruct (update_account G st1 x c) as [[s1 r1]|] eqn:Hu; [|done]. cbn in Hrun. eapply (IH s1); [| | |exact Hrun].
  - by apply (taken_kept c st1 (G, x) s1 r1 Hc Hok Hx Hu).
  - eapply Forall_impl; [exact Hus|]. intros v Hv. exact (heard_again c st1 (G, x) s1 r1 Hc Hok Hx Hu v Hv).
  - by eapply update_ok.
Qed.
Print Assumptions C114_again_later.
(** Test data: a known and two new accounts, a closed version and two versions of one slot, and the same with repetitions; not in the code. *)
Definition l114 : list acct := us108.*2.
Definition r114 : list acct := [mk_acct 9 7 0 [] 12 3; acc5 11 6; mk_acct 9 7 0 [] 12 3; acc5 11 4; acc5 10 9; acc5 11 6; mk_acct 6 7 4 (bs [2]) 11 2; acc5 11 4].
Example C114_example : exists st s s', reachable ext_sample st /\ (forall a, a ∈ l114 <-> a ∈ r114) /\ Forall (heard Processed st) (pair admit_all <$> l114) /\ told_apart (pair admit_all <$> l114) /\ one_owner Processed st (pair admit_all <$> l114) /\
  run ext_sample st (batch Processed (pair admit_all <$> l114)) = Done s /\ run ext_sample st (batch Processed (pair admit_all <$> r114)) = Done s' /\
  st_index s <> st_index s' /\ version_at s 5 Processed = Some (acc5 11 6) /\ version_at s' 5 Processed = Some (acc5 11 6).
Proof.
  set (h := [slt 10 9 Processed; upd (acc5 10 1) Processed]). change (pair admit_all <$> l114) with us108.
  exists (final h), (final (h ++ batch Processed us108)), (final (h ++ batch Processed (pair admit_all <$> r114))).
  split; [exists h; crunch|]. split; [intros a; unfold l114, us108, r114; cbn [fmap list_fmap snd]; rewrite !elem_of_cons, elem_of_nil; tauto|]. split.
  { apply Forall_forall. intros u Hu. unfold us108 in Hu. rewrite !elem_of_cons, elem_of_nil in Hu. destruct_or?; subst u; (split; [right; done|]);
      intros k Hk; vm_compute in Hk; congruence. }
  split.
  { intros u v Hu Hv. unfold us108 in *. rewrite !elem_of_cons, elem_of_nil in Hu, Hv. destruct_or?; subst u v; simpl; intros; done. }
  split.
  { split.
    - intros u v Hu Hv. unfold us108 in *. rewrite !elem_of_cons, elem_of_nil in Hu, Hv. destruct_or?; subst u v; simpl; intros; done.
    - intros u x Hu Hx. unfold us108 in *. rewrite !elem_of_cons, elem_of_nil in Hu. destruct_or?; subst u; vm_compute in Hx; [injection Hx as <-|..]; try done; injection Hx as <-; done. }
  split; [crunch|]. split; [crunch|]. split; [|split; crunch].
  intros He. apply (f_equal (fun m => m !! 9)) in He. vm_compute in He. discriminate He.
Qed.
(** An older version of a slot heard again after a newer one, a version of another slot and a new account. *)
Example C114_again_example : exists st st1 st2, reachable ext_sample st /\ heard Processed st (admit_all, acc5 11 4) /\ update_account admit_all st (acc5 11 4) Processed = Done (st1, true) /\ Forall (heard Processed st) us108 /\
  run ext_sample st1 (batch Processed us108) = Done st2 /\ version_at st2 5 Processed = Some (acc5 11 6) /\ st_index st1 <> st_index st2.
Proof.
  set (h := [slt 10 9 Processed; upd (acc5 10 1) Processed]).
  exists (final h), (final (h ++ batch Processed [(admit_all, acc5 11 4)])), (final (h ++ batch Processed ((admit_all, acc5 11 4) :: us108))).
  assert (Forall (heard Processed (final h)) us108) as Hh.
  { apply Forall_forall. intros u Hu. unfold us108 in Hu. rewrite !elem_of_cons, elem_of_nil in Hu. destruct_or?; subst u; (split; [right; done|]);
      intros k Hk; vm_compute in Hk; congruence. }
  split; [exists h; crunch|]. split; [by apply Forall_cons in Hh as [? _]|]. split; [crunch|]. split; [done|]. split; [crunch|]. split; [crunch|].
  intros He. apply (f_equal (fun m => m !! 9)) in He. vm_compute in He. discriminate He.
Qed.
(** The batch has to end before a newer slot is finalized: an update heard again later is then answered with true, and the store holds the old version again, of a slot below the finalized one. *)
Theorem C114_late_refuted : exists E F st a st1 h st2 st3, reachable E st /\ heard Processed st (F, a) /\ update_account F st a Processed = Done (st1, true) /\ run E st1 h = Done st2 /\
  version_at st2 (d_pubkey a) Finalized = Some (acc5 11 2) /\ d_slot a < 11 /\ update_account F st2 a Processed = Done (st3, true) /\ ~ wrote st2 (d_slot a) (d_pubkey a) /\ wrote st3 (d_slot a) (d_pubkey a).
Proof.
  set (h0 := [upd (acc5 10 1) Processed]). set (h := [upd (acc5 11 2) Processed; slt 11 10 Finalized]).
  exists ext_sample, admit_all, store_empty, (acc5 10 1), (final h0), h, (final (h0 ++ h)), (final (h0 ++ h ++ h0)).
  split; [exists []; done|]. split; [split; [by right|]; intros k Hk; vm_compute in Hk; discriminate Hk|]. split; [crunch|]. split; [crunch|]. split; [crunch|]. split; [by vm_compute|]. split; [crunch|].
  split.
  - intros (i & ss & Hi & Hs & Hin). vm_compute in Hs. first [discriminate Hs|injection Hs as <-; vm_compute in Hi; injection Hi as <-; apply (bool_decide_spec _) in Hin; vm_compute in Hin; done].
  - exists 0%nat. eexists. split; [by vm_compute|]. split; [vm_compute; reflexivity|]. apply (bool_decide_unpack _). by vm_compute.
Qed.
Print Assumptions C114_late_refuted.
