(** Theorems about handing storage files to several consumers (C75). *)
From Verif Require Import Base DataModel AvecModel AvecSpec AvecProps ParallelModel ParallelSpec.

Fixpoint running (l : list task) : list (sres avec) :=
  match l with [] => [] | TRun _ x :: l' => x :: running l' | TEnd _ :: l' => running l' end.
Fixpoint ids (l : list task) : list nat :=
  match l with [] => [] | TRun c _ :: l' => c :: ids l' | TEnd (Some c) :: l' => c :: ids l' | TEnd None :: l' => ids l' end.
Fixpoint fails (l : list task) : nat := match l with [] => 0 | TEnd None :: l' => S (fails l') | _ :: l' => fails l' end.
Lemma running_app a b : running (a ++ b) = running a ++ running b.
Proof. induction a as [|[c x|c] a IH]; simpl; [done|by rewrite IH|done]. Qed.
Lemma ids_app a b : ids (a ++ b) = ids a ++ ids b.
Proof. induction a as [|[c x|[c|]] a IH]; simpl; [done|by rewrite IH|by rewrite IH|done]. Qed.
Lemma fails_app a b : fails (a ++ b) = (fails a + fails b)%nat.
Proof. induction a as [|[c x|[c|]] a IH]; simpl; [done|done|done|by rewrite IH]. Qed.
Lemma fails_in a : (0 < fails a)%nat <-> TEnd None ∈ a.
Proof.
  induction a as [|[c x|[c|]] a IH]; simpl; rewrite ?elem_of_cons.
  - split; [lia|by intros ?%elem_of_nil].
  - rewrite IH. split; [by right|by intros [?|?]].
  - rewrite IH. split; [by right|by intros [?|?]].
  - split; [by left|lia].
Qed.
Lemma working_ids ts : working ts `sublist_of` ids ts.
Proof. induction ts as [|[c x|[c|]] ts IH]; simpl; [done|by apply sublist_skip|by apply sublist_cons|done]. Qed.

Lemma sub_nodup {A} (l k : list A) : NoDup k -> l `sublist_of` k -> NoDup l.
Proof.
  intros Hk H. induction H as [|x l k H IH|x l k H IH]; [done| |]; apply NoDup_cons in Hk as [Hx Hk].
  - apply NoDup_cons. split; [|auto]. intros Hl. apply Hx. by eapply elem_of_submseteq, sublist_submseteq.
  - auto.
Qed.
(** What happened to the items. *)
Definition conserved (items : list (sres avec)) (s : pstate) : Prop := exists lost,
  items ≡ₚ (SOk <$> consumed s) ++ lost ++ running (ps_tasks s) ++ ps_items s /\
  (ps_out s = None \/ ps_out s = Some OutOk -> length lost = fails (ps_tasks s)) /\
  (ps_out s = Some OutOk -> ps_tasks s = [] /\ ps_items s = []).
Definition blamed (items : list (sres avec)) (s : pstate) : Prop :=
  (TEnd None ∈ ps_tasks s \/ ps_out s = Some OutErr -> (exists e, SErr e ∈ items) \/ ps_bad s <> []) /\
  (ps_bad s <> [] -> ps_out s = None /\ TEnd None ∈ ps_tasks s \/ ps_out s = Some OutErr).
Definition bounded (n : nat) (s : pstate) : Prop :=
  (length (ps_tasks s) <= n)%nat /\ (ps_made s <= n)%nat /\ (ps_out s = None -> ps_items s <> [] -> ps_made s = length (ps_tasks s)) /\
  NoDup (ids (ps_tasks s)) /\ Forall (fun c => (c < ps_made s)%nat) (ids (ps_tasks s)).

Lemma conserved_step n items s s' : conserved items s -> pstep n s s' -> conserved items s'.
Proof.
  intros (lost & Hp & Hl & Ho). unfold conserved, consumed in *.
  destruct 1 as [x xs ts m dn bd Hlt|x xs ts1 ts2 c m dn bd Hle|x xs ts1 ts2 m dn bd Hle|x xs m dn bd Hn|ts1 ts2 c m dn bd|ts1 ts2 m dn bd|m dn bd
    |xs ts1 ts2 c e m dn bd|xs ts1 ts2 c v m dn bd|xs ts1 ts2 c v m dn bd]; simpl in *.
  - exists lost. rewrite running_app, fails_app. simpl. split; [rewrite Hp; solve_Permutation|]. split; [|done]. intros _. rewrite Hl by auto. lia.
  - exists lost. rewrite !running_app in *. rewrite !fails_app in *. simpl in *. split; [rewrite Hp; solve_Permutation|]. split; [|done]. intros _. rewrite Hl by auto. lia.
  - exists (lost ++ running (ts1 ++ TEnd None :: ts2) ++ [x]). split; [rewrite Hp; solve_Permutation|]. split; [by intros [|]|done].
  - exists (lost ++ [x]). split; [rewrite Hp; simpl; solve_Permutation|]. split; [by intros [|]|done].
  - exists lost. rewrite !running_app in *. rewrite !fails_app in *. simpl in *. split; [rewrite Hp; solve_Permutation|]. split; [|done]. intros _. rewrite Hl by auto. lia.
  - exists (lost ++ running (ts1 ++ TEnd None :: ts2)). split; [rewrite Hp; solve_Permutation|]. split; [by intros [|]|done].
  - exists lost. split; [done|]. split; [|done]. intros _. apply Hl. by left.
  - exists (lost ++ [SErr e]). rewrite !running_app in *. rewrite !fails_app in *. simpl in *. split; [rewrite Hp; solve_Permutation|]. split; [|done].
    intros _. rewrite app_length, Hl by auto. simpl. lia.
  - exists lost. rewrite !running_app in *. rewrite !fails_app in *. simpl in *. rewrite fmap_app, fmap_app. simpl. split; [rewrite Hp; solve_Permutation|]. split; [|done]. intros _. rewrite Hl by auto. lia.
  - exists (lost ++ [SOk v]). rewrite !running_app in *. rewrite !fails_app in *. simpl in *. split; [rewrite Hp; solve_Permutation|]. split; [|done].
    intros _. rewrite app_length, Hl by auto. simpl. lia.
Qed.
Lemma blamed_step n items s s' : conserved items s -> blamed items s -> pstep n s s' -> blamed items s'.
Proof.
  intros (lost & Hp & _ & _) [H1 H2]. unfold blamed in *.
  destruct 1 as [x xs ts m dn bd Hlt|x xs ts1 ts2 c m dn bd Hle|x xs ts1 ts2 m dn bd Hle|x xs m dn bd Hn|ts1 ts2 c m dn bd|ts1 ts2 m dn bd|m dn bd
    |xs ts1 ts2 c e m dn bd|xs ts1 ts2 c v m dn bd|xs ts1 ts2 c v m dn bd]; simpl in *;
    rewrite <- ?fails_in in *; rewrite ?fails_app in *; simpl in *; rewrite ?Nat.add_0_r, ?Nat.add_succ_r in *.
  - split; [intros [?|?]; [by apply H1; left|done]|]. intros ?. left. destruct H2 as [[_ ?]|?]; done.
  - split; [intros [?|?]; [by apply H1; left|done]|]. intros ?. left. destruct H2 as [[_ ?]|?]; done.
  - split; [intros _; apply H1; left; lia|by right].
  - split; [by intros [?|?]; [lia|]|]. intros ?. destruct H2 as [[_ ?]|?]; [done|lia|done].
  - split; [intros [?|?]; [by apply H1; left|done]|]. intros ?. left. destruct H2 as [[_ ?]|?]; done.
  - split; [intros _; apply H1; left; lia|by right].
  - split; [by intros [?|?]; [lia|]|]. intros ?. destruct H2 as [[_ ?]|?]; [done|lia|done].
  - split; [|intros ?; left; split; [done|lia]]. intros _. left. exists e. rewrite Hp, !running_app. simpl. set_solver.
  - split; [intros [?|?]; [by apply H1; left|done]|]. intros ?. left. destruct H2 as [[_ ?]|?]; done.
  - split; [intros _; right; by destruct bd|]. intros _. left. split; [done|lia].
Qed.
Lemma bounded_step n s s' : bounded n s -> pstep n s s' -> bounded n s'.
Proof.
  intros (H1 & H2 & H3 & H4 & H5). unfold bounded.
  destruct 1 as [x xs ts m dn bd Hlt|x xs ts1 ts2 c m dn bd Hle|x xs ts1 ts2 m dn bd Hle|x xs m dn bd Hn|ts1 ts2 c m dn bd|ts1 ts2 m dn bd|m dn bd
    |xs ts1 ts2 c e m dn bd|xs ts1 ts2 c v m dn bd|xs ts1 ts2 c v m dn bd]; simpl in *; rewrite ?ids_app, ?app_length in *; simpl in *.
  - assert (m = length ts) as -> by auto. split; [lia|]. split; [lia|]. split; [intros; lia|]. split.
    + apply NoDup_app. split; [done|]. split; [|apply NoDup_singleton]. intros c Hc Hc'%elem_of_list_singleton. subst c.
      rewrite Forall_forall in H5. specialize (H5 _ Hc). lia.
    + apply Forall_app. split; [|by constructor; [lia|]]. eapply Forall_impl; [exact H5|]. simpl. lia.
  - rewrite ?ids_app in *. simpl in *. split; [lia|]. split; [done|]. split; [intros; rewrite H3 by done; lia|]. split.
    + assert (ids ts1 ++ ids ts2 ++ [c] ≡ₚ ids ts1 ++ c :: ids ts2) as -> by solve_Permutation. done.
    + rewrite !Forall_app in *. destruct H5 as [? [? ?]%Forall_cons]. by rewrite Forall_singleton.
  - split; [lia|]. split; [done|]. split; [done|]. split; [constructor|done].
  - split; [lia|]. split; [done|]. split; [done|]. split; [constructor|done].
  - split; [lia|]. split; [done|]. split; [done|]. split.
    + eapply sub_nodup; [exact H4|]. apply sublist_app; [done|by apply sublist_cons].
    + rewrite !Forall_app in *. by destruct H5 as [? [? ?]%Forall_cons].
  - split; [lia|]. split; [done|]. split; [done|]. split; [constructor|done].
  - done.
  - split; [lia|]. split; [done|]. split; [intros; rewrite H3 by done; lia|]. split.
    + eapply sub_nodup; [exact H4|]. apply sublist_app; [done|by apply sublist_cons].
    + rewrite !Forall_app in *. by destruct H5 as [? [? ?]%Forall_cons].
  - split; [lia|]. split; [done|]. split; [intros; rewrite H3 by done; lia|]. done.
  - split; [lia|]. split; [done|]. split; [intros; rewrite H3 by done; lia|]. split.
    + eapply sub_nodup; [exact H4|]. apply sublist_app; [done|by apply sublist_cons].
    + rewrite !Forall_app in *. by destruct H5 as [? [? ?]%Forall_cons].
Qed.
Lemma run_inv n items s : run_of n items s -> conserved items s /\ blamed items s /\ bounded n s.
Proof.
  unfold run_of. intros H. assert (conserved items (ps_start items) /\ blamed items (ps_start items) /\ bounded n (ps_start items)) as H0.
  { split; [exists []; simpl; split; [done|by split]|]. split; [split; [by intros [?%elem_of_nil|?]|done]|]. split; [simpl; lia|]. split; [simpl; lia|]. split; [done|]. split; constructor. }
  revert H0. induction H as [s|s1 s2 s3 Hs _ IH]; [done|]. intros (Ha & Hb & Hc). apply IH. split; [by eapply conserved_step|]. split; [by eapply blamed_step|by eapply bounded_step].
Qed.
Lemma readable_perm l l' : l ≡ₚ l' -> readable l ≡ₚ readable l'.
Proof. induction 1 as [|[v|e] l l' _ IH|[v|e] [v'|e'] l|l l' l'' _ IH1 _ IH2]; simpl; [done|by rewrite IH|done|constructor|done|done|done|by rewrite IH1]. Qed.
Lemma readable_app l l' : readable (l ++ l') = readable l ++ readable l'.
Proof. induction l as [|[v|e] l IH]; simpl; [done|by rewrite IH|done]. Qed.
Lemma readable_ok vs : readable (SOk <$> vs) = vs.
Proof. induction vs as [|v vs IH]; [done|]. rewrite fmap_cons. simpl. by rewrite IH. Qed.

(** C75: when the call returns [Ok], all items were readable and every file was consumed exactly once. *)
Theorem C75_ok_complete : forall n items s, run_of n items s -> ps_out s = Some OutOk ->
  items = SOk <$> readable items /\ consumed s ≡ₚ readable items /\ ps_bad s = [].
Proof.
  intros n items s Hr Ho. destruct (run_inv _ _ _ Hr) as ((lost & Hp & Hl & Hq) & [_ Hb] & _).
  destruct (Hq Ho) as [Ht Hi]. rewrite Ht, Hi in *. specialize (Hl (or_intror Ho)). simpl in Hl. apply nil_length_inv in Hl as ->.
  simpl in Hp. rewrite app_nil_r in Hp. split; [|split].
  - assert (Forall (fun x => exists v, x = SOk v) items) as Hall.
    { rewrite Hp. apply Forall_fmap, Forall_forall. simpl. eauto. }
    clear -Hall. induction Hall as [|x items [v ->] _ IH]; [done|]. cbn [readable]. rewrite fmap_cons. by rewrite <- IH.
  - apply readable_perm in Hp. by rewrite Hp, readable_ok.
  - destruct (ps_bad s) as [|x l]; [done|]. destruct Hb as [[? _]|?]; congruence.
Qed.
Print Assumptions C75_ok_complete.
(** At any moment, whatever the outcome, no file was consumed twice and nothing was consumed that the iterator did not yield. *)
Theorem C75_never_twice : forall n items s, run_of n items s -> consumed s ⊆+ readable items.
Proof.
  intros n items s Hr. destruct (run_inv _ _ _ Hr) as ((lost & Hp & _) & _). apply readable_perm in Hp. rewrite Hp, readable_app, readable_ok.
  by apply submseteq_inserts_r.
Qed.
Print Assumptions C75_never_twice.
(** At most [n] files are in work at a time, by different consumers; at most [n] consumers are created. *)
Theorem C75_bounded : forall n items s, run_of n items s ->
  (length (working (ps_tasks s)) <= n)%nat /\ NoDup (working (ps_tasks s)) /\ (ps_made s <= n)%nat.
Proof.
  intros n items s Hr. destruct (run_inv _ _ _ Hr) as (_ & _ & H1 & H2 & _ & H4 & _). pose proof (working_ids (ps_tasks s)) as Hw.
  split; [|split; [by eapply sub_nodup|done]]. apply (Nat.le_trans _ (length (ps_tasks s))); [|done].
  clear. induction (ps_tasks s) as [|[c x|c] ts IH]; simpl; lia.
Qed.
Print Assumptions C75_bounded.
(** An error is returned exactly when there was one: an unreadable item or a consumer that failed. *)
Theorem C75_errors_reported : forall n items s, run_of n items s ->
  (ps_out s = Some OutErr -> (exists e, SErr e ∈ items) \/ ps_bad s <> []) /\
  (ps_out s = Some OutOk -> (forall e, SErr e ∉ items) /\ ps_bad s = []).
Proof.
  intros n items s Hr. split.
  - intros Ho. destruct (run_inv _ _ _ Hr) as (_ & [Hb _] & _). apply Hb. by right.
  - intros Ho. destruct (C75_ok_complete _ _ _ Hr Ho) as (Hi & _ & Hb). split; [|done]. intros e He. rewrite Hi in He. by apply elem_of_list_fmap in He as (? & ? & _).
Qed.
Print Assumptions C75_errors_reported.
(** The call ends: no run is infinite, and with at least one thread every run can be continued until the call returns (and it does
    not panic). *)
Definition weight (s : pstate) : nat :=
  4 * length (ps_items s) + length (ps_tasks s) + length (running (ps_tasks s)) + match ps_out s with None => 1 | Some _ => 0 end.
Lemma weight_step n s s' : pstep n s s' -> (weight s' < weight s)%nat.
Proof. unfold weight. destruct 1; simpl; rewrite ?app_length, ?running_app; simpl; rewrite ?app_length, ?running_app, ?app_length; simpl; rewrite ?app_length; simpl; lia. Qed.
Lemma progress n s : (0 < n)%nat -> ps_out s = None -> exists s', pstep n s s'.
Proof.
  intros Hn. destruct s as [items ts m dn bd out]. simpl. intros ->. destruct ts as [|[c [v|e]|[c|]] ts].
  - destruct items as [|x xs]; [eexists; apply p_return|]. eexists. apply p_new. simpl. lia.
  - eexists. apply (t_consume n items [] ts).
  - eexists. apply (t_unreadable n items [] ts).
  - destruct items as [|x xs]; [eexists; apply (p_join n [] ts)|]. destruct (decide (length (TEnd (Some c) :: ts) < n)%nat) as [Hlt|Hge].
    + eexists. by apply p_new.
    + eexists. apply (p_reuse n x xs [] ts). simpl in *. lia.
  - destruct items as [|x xs]; [eexists; apply (p_join_fail n [] ts)|]. destruct (decide (length (TEnd None :: ts) < n)%nat) as [Hlt|Hge].
    + eexists. by apply p_new.
    + eexists. apply (p_fail n x xs [] ts). simpl in *. lia.
Qed.
Lemma no_panic n items s : (0 < n)%nat -> run_of n items s -> ps_out s <> Some OutPanic.
Proof.
  intros Hn. unfold run_of. intros Hr. assert (ps_out (ps_start items) <> Some OutPanic) as H0 by done. revert H0.
  induction Hr as [s|s1 s2 s3 Hs _ IH]; [done|]. intros _. apply IH. destruct Hs; simpl; done || lia.
Qed.
Theorem C75_terminates_partial : forall n items, (0 < n)%nat ->
  (forall f, ~ (f 0%nat = ps_start items /\ forall i, pstep n (f i) (f (S i)))) /\
  forall s, run_of n items s -> exists s', rtc (pstep n) s s' /\ (ps_out s' = Some OutOk \/ ps_out s' = Some OutErr).
Proof.
  intros n items Hn. split.
  - intros f [_ Hf]. assert (forall i, (weight (f i) + i <= weight (f 0%nat))%nat) as H.
    { induction i as [|i IH]; [lia|]. specialize (weight_step _ _ _ (Hf i)). lia. }
    specialize (H (S (weight (f 0%nat)))). lia.
  - intros s Hr. remember (weight s) as w eqn:Hw. revert s Hr Hw. induction (lt_wf w) as [w _ IH]. intros s Hr ->.
    destruct (ps_out s) as [o|] eqn:Ho.
    + exists s. split; [done|]. rewrite Ho. pose proof (no_panic _ _ _ Hn Hr) as Hp. rewrite Ho in Hp. destruct o; [by left|by right|done].
    + destruct (progress n s Hn Ho) as [s1 Hs]. destruct (IH (weight s1) (weight_step _ _ _ Hs) s1) as (s' & Hs' & Ho'); [by eapply rtc_r|done|].
      exists s'. split; [by eapply rtc_l|done].
Qed.
Print Assumptions C75_terminates_partial.
(** With no thread at all the call panics as soon as there is a file. *)
Theorem C75_no_threads_refuted : exists items s, items <> [] /\ run_of 0 items s /\ ps_out s = Some OutPanic.
Proof. exists [SErr EIo]. eexists. split; [done|]. split; [|shelve]. apply rtc_once. by apply p_panic. Unshelve. done. Qed.
Print Assumptions C75_no_threads_refuted.
(** Two threads, three files, the second overtaking the first. *)
Definition vec_of (slot : N) : avec := AVec f12 (lenN f12) (lenN f12) slot.
Example C75_example_hyps : exists s, run_of 2 (SOk <$> [vec_of 1; vec_of 2; vec_of 3]) s /\ ps_out s = Some OutOk /\ ps_done s = [(1%nat, vec_of 2); (1%nat, vec_of 3); (0%nat, vec_of 1)].
Proof.
  eexists (PS [] [] 2 _ [] (Some OutOk)). split; [|split; [done|reflexivity]]. unfold run_of, ps_start.
  eapply rtc_l; [apply p_new; simpl; lia|]. eapply rtc_l; [apply p_new; simpl; lia|].
  eapply rtc_l; [apply (t_consume 2 _ [TRun 0 (SOk (vec_of 1))] [])|]. eapply rtc_l; [apply (p_reuse 2 _ _ [TRun 0 (SOk (vec_of 1))] []); simpl; lia|].
  eapply rtc_l; [apply (t_consume 2 _ [TRun 0 (SOk (vec_of 1))] [])|]. eapply rtc_l; [apply (t_consume 2 _ [] [TEnd (Some 1%nat)])|].
  eapply rtc_l; [apply (p_join 2 [] [TEnd (Some 1%nat)])|]. eapply rtc_l; [apply (p_join 2 [] [])|]. eapply rtc_l; [apply p_return|]. apply rtc_refl.
Qed.
