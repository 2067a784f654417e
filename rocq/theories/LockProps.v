(** Deadlock (C37). *)
From Verif Require Import Base LockModel.

(** ** Ordered acquisition excludes deadlock *)
Definition rank (l : lk) : nat :=
  match l with
  | LIdx _ => 0 | LStore => 1 | LAcc _ => 2 | LOwn _ => 3 | LSet _ => 4 | LSlots => 5 | LFilter => 6
  | TMintIdx _ => 7 | TByMint _ | TByOwner _ | TKey _ | TPend => 8 | TTable => 9 | TMint k | TMulti k => (10 + k)%nat
  end.
(** Every acquisition has a higher rank than all guards held, every release a guard, nothing is held at the end. *)
Fixpoint ordered (h : list (lk * bool)) (t : list instr) : Prop :=
  match t with
  | [] => h = []
  | Acq l w :: t' => (forall l' w', (l', w') ∈ h -> (rank l' < rank l)%nat) /\ ordered ((l, w) :: h) t'
  | Rel l :: t' => ordered (drop_guard l h) t'
  end.
Definition all_ordered (ths : list thread) : Prop := forall i th, ths !! i = Some th -> ordered (th_held th) (th_todo th).

Lemma ordered_step ths ths' : all_ordered ths -> lstep ths ths' -> all_ordered ths'.
Proof.
  intros H Hs j th Hj. destruct Hs as [i h l w t Hi Hm|i h l t Hi].
  - apply list_lookup_insert_Some in Hj as [(-> & <- & _)|[_ Hj]]; [|by eapply H].
    specialize (H _ _ Hi). simpl in *. by destruct H.
  - apply list_lookup_insert_Some in Hj as [(-> & <- & _)|[_ Hj]]; [|by eapply H].
    specialize (H _ _ Hi). by simpl in *.
Qed.
Lemma ordered_reach ths ths' : all_ordered ths -> lreach ths ths' -> all_ordered ths'.
Proof. intros H. induction 1 as [|x y z Hs _ IH]; [done|]. apply IH. by eapply ordered_step. Qed.

(** The head instruction of a thread. *)
Definition wants (th : thread) (l : lk) (w : bool) : Prop := exists t, th_todo th = Acq l w :: t.
Definition releasing (th : thread) : Prop := exists l t, th_todo th = Rel l :: t.

(** Classical case split on finite lists of threads is decidable. *)
Definition head_rank (th : thread) : option nat :=
  match th_todo th with Acq l _ :: _ => Some (rank l) | _ => None end.
Lemma max_head (ths : list thread) :
  (forall i th, ths !! i = Some th -> head_rank th = None) \/
  exists i th n, ths !! i = Some th /\ head_rank th = Some n /\
    forall j th' m, ths !! j = Some th' -> head_rank th' = Some m -> (m <= n)%nat.
Proof.
  induction ths as [|x ths IH].
  - left. intros i th. by rewrite lookup_nil.
  - destruct (head_rank x) as [n|] eqn:Hx.
    + right. destruct IH as [IH|(i & th & m & Hi & Hm & Hmax)].
      * exists 0%nat, x, n. split; [done|]. split; [done|]. intros [|j] th' m; simpl; [intros [= <-]; rewrite Hx; by intros [= <-]|].
        intros Hj Hm. rewrite (IH _ _ Hj) in Hm. done.
      * destruct (decide (m <= n)%nat).
        -- exists 0%nat, x, n. split; [done|]. split; [done|]. intros [|j] th' m'; simpl; [intros [= <-]; rewrite Hx; by intros [= <-]|].
           intros Hj Hm'. specialize (Hmax _ _ _ Hj Hm'). lia.
        -- exists (S i), th, m. split; [done|]. split; [done|]. intros [|j] th' m'; simpl; [intros [= <-]; rewrite Hx; intros [= <-]; lia|].
           apply Hmax.
    + destruct IH as [IH|(i & th & m & Hi & Hm & Hmax)].
      * left. intros [|i] th; simpl; [by intros [= <-]|apply IH].
      * right. exists (S i), th, m. split; [done|]. split; [done|]. intros [|j] th' m'; simpl; [intros [= <-]; by rewrite Hx|apply Hmax].
Qed.
Lemma find_thread (P : thread -> Prop) `{!forall th, Decision (P th)} (ths : list thread) :
  (exists i th, ths !! i = Some th /\ P th) \/ forall i th, ths !! i = Some th -> ~ P th.
Proof.
  induction ths as [|x ths IH]; [right; intros i th; by rewrite lookup_nil|].
  destruct (decide (P x)) as [Hx|Hx]; [left; by exists 0%nat, x|].
  destruct IH as [(i & th & Hi & HP)|IH]; [left; by exists (S i), th|]. right. intros [|i] th; simpl; [by intros [= <-]|apply IH].
Qed.
#[global] Instance releasing_dec th : Decision (releasing th).
Proof.
  destruct th as [h [|[l w|l] t]]; unfold releasing; simpl.
  - right. by intros (? & ? & ?).
  - right. by intros (? & ? & ?).
  - left. eauto.
Defined.
#[global] Instance holds_any_dec th l : Decision (holds_any th l).
Proof.
  unfold holds_any. destruct (decide ((l, true) ∈ th_held th)) as [H|H]; [left; eauto|].
  destruct (decide ((l, false) ∈ th_held th)) as [H'|H']; [left; eauto|]. right. intros [[] ?]; done.
Defined.
#[global] Instance wants_dec th l w : Decision (wants th l w).
Proof.
  destruct th as [h [|[l' w'|l'] t]]; unfold wants; simpl.
  - right. by intros (? & ?).
  - destruct (decide (l' = l /\ w' = w)) as [[-> ->]|Hne]; [left; eauto|]. right. intros (t' & Ht). injection Ht as -> -> _. by apply Hne.
  - right. by intros (? & ?).
Defined.

Lemma ordered_progress ths : all_ordered ths -> (exists i th, ths !! i = Some th /\ th_todo th <> []) ->
  exists ths', lstep ths ths'.
Proof.
  intros Hord (i0 & th0 & Hi0 & Hne).
  destruct (find_thread releasing ths) as [(i & [h t] & Hi & (l & t' & Ht))|Hnr].
  { simpl in Ht. subst. eexists. by eapply lstep_rel. }
  destruct (max_head ths) as [Hno|(i & th & n & Hi & Hn & Hmax)].
  { exfalso. specialize (Hno _ _ Hi0). specialize (Hnr _ _ Hi0). destruct th0 as [h [|[l w|l] t]]; simpl in *; try done.
    apply Hnr. unfold releasing. eauto. }
  destruct th as [h [|[l w|l] t]]; simpl in Hn; try done. injection Hn as <-.
  (* no thread holds [l]: such a thread would wait for a higher rank, or release *)
  assert (forall j th', ths !! j = Some th' -> ~ holds_any th' l) as Hfree.
  { intros j [h' t'] Hj [w' Hw']. simpl in Hw'. pose proof (Hord _ _ Hj) as Ho. simpl in Ho.
    destruct t' as [|[l2 w2|l2] t2]; simpl in Ho.
    - subst h'. by apply elem_of_nil in Hw'.
    - destruct Ho as [Ho _]. specialize (Ho _ _ Hw'). specialize (Hmax j _ (rank l2) Hj eq_refl). lia.
    - apply (Hnr _ _ Hj). unfold releasing. simpl. eauto. }
  destruct (find_thread (fun th => wants th l true) ths) as [(j & [h' t'] & Hj & (t2 & Ht))|Hnw].
  - simpl in Ht. subst t'. eexists. eapply (lstep_acq ths j); [done|]. simpl. done.
  - eexists. eapply (lstep_acq ths i); [exact Hi|]. destruct w; simpl.
    + exact Hfree.
    + intros j th' Hj. split.
      * intros Hw. apply (Hfree _ _ Hj). by exists true.
      * intros _ [t' Ht]. apply (Hnw _ _ Hj). by exists t'.
Qed.

(** ** The calls are ordered unless a slot notification drops an account *)
Lemma ordered_app h t1 t2 : ordered [] t2 -> ordered h t1 -> ordered h (t1 ++ t2).
Proof.
  intros H2. revert h. induction t1 as [|[l w|l] t1 IH]; intros h; simpl.
  - by intros ->.
  - intros [H1 H3]. auto.
  - apply IH.
Qed.
(** [t] is ordered when started with [h] held, and gives [h] back. *)
Definition bracket (r : nat) (t : list instr) : Prop :=
  forall h k, (forall l w, (l, w) ∈ h -> (rank l < r)%nat) -> ordered h k -> ordered h (t ++ k).
Lemma bracket_nil r : bracket r [].
Proof. intros h k _ H. done. Qed.
Lemma bracket_app r t1 t2 : bracket r t1 -> bracket r t2 -> bracket r (t1 ++ t2).
Proof. intros H1 H2 h k Hh Hk. rewrite <- app_assoc. apply H1; [done|]. by apply H2. Qed.
Lemma bracket_wrap r l w t : (r <= rank l)%nat -> bracket (S (rank l)) t -> bracket r ([Acq l w] ++ t ++ [Rel l]).
Proof.
  intros Hr Ht h k Hh Hk. rewrite <- !app_assoc. simpl. split.
  - intros l' w' Hin. specialize (Hh _ _ Hin). lia.
  - apply Ht.
    + intros l' w' [[= -> ->]|Hin]%elem_of_cons; [lia|]. specialize (Hh _ _ Hin). lia.
    + simpl. by rewrite bool_decide_true.
Qed.
Lemma bracket_brief r l w : (r <= rank l)%nat -> bracket r (brief l w).
Proof. intros H. apply (bracket_wrap r l w [] H). apply bracket_nil. Qed.
Lemma bracket_concat r ts : (forall t, t ∈ ts -> bracket r t) -> bracket r (concat ts).
Proof.
  induction ts as [|t ts IH]; intros H; simpl; [apply bracket_nil|]. apply bracket_app; [apply H; left|].
  apply IH. intros t' Ht'. apply H. by right.
Qed.
Lemma bracket_mono r r' t : (r <= r')%nat -> bracket r' t -> bracket r t.
Proof. intros Hr H h k Hh. apply H. intros l w Hin. specialize (Hh _ _ Hin). lia. Qed.
Lemma bracket_ordered t : bracket 0 t -> ordered [] t.
Proof. intros H. rewrite <- (app_nil_r t). apply H; [|done]. intros l w Hin. by apply elem_of_nil in Hin. Qed.

Lemma b_filter r : (r <= 6)%nat -> bracket r t_filter.
Proof. intros. by apply bracket_brief. Qed.
Lemma b_add_owner t : t_add_owner t -> bracket 3 t.
Proof.
  destruct 1; [|by apply bracket_brief]. apply bracket_wrap; [done|]. by apply bracket_brief.
Qed.
Lemma b_update_owner t d : t_update_owner t d -> bracket 3 t.
Proof.
  assert (bracket 3 t_filter) by (apply b_filter; lia).
  destruct 1; repeat apply bracket_app; try done; try apply bracket_nil; by apply b_add_owner.
Qed.
Lemma b_maybe_status t : t_maybe_status t -> bracket 0 t.
Proof. destruct 1; repeat apply bracket_app; apply bracket_brief; simpl; lia. Qed.
Lemma b_pre (pre : list instr) k : pre = [] \/ pre = t_filter \/ pre = t_filter ++ brief (LIdx k) false -> bracket 0 pre.
Proof.
  assert (bracket 0 t_filter) by (apply b_filter; lia).
  intros [-> |[-> | ->]]; [apply bracket_nil|done|]. apply bracket_app; [done|]. apply bracket_brief. simpl. lia.
Qed.
Lemma b_update t : t_update t -> bracket 0 t.
Proof.
  destruct 1 as [k|pre ms k i uo del Hpre Hms Huo|pre ms k ao Hpre Hms Hao|pre ms k Hpre Hms].
  - apply bracket_app; [apply b_filter; lia|apply bracket_brief; simpl; lia].
  - apply bracket_app; [by eapply b_pre|]. apply bracket_app; [by apply b_maybe_status|].
    replace ([Acq (LIdx k) true; Acq LStore false; Acq (LAcc i) true] ++ uo ++ [Rel (LAcc i); Rel LStore; Rel (LIdx k)])
      with ([Acq (LIdx k) true] ++ ([Acq LStore false] ++ ([Acq (LAcc i) true] ++ uo ++ [Rel (LAcc i)]) ++ [Rel LStore]) ++ [Rel (LIdx k)])
      by (simpl; by rewrite <- !app_assoc).
    apply bracket_wrap; [simpl; lia|].
    apply bracket_wrap; [simpl; lia|]. simpl rank. apply bracket_wrap; [simpl; lia|]. by eapply b_update_owner.
  - apply bracket_app; [by eapply b_pre|]. apply bracket_app; [by apply b_maybe_status|].
    rewrite !app_assoc. rewrite <- !(app_assoc [Acq (LIdx k) true]).
    apply bracket_wrap; [simpl; lia|]. simpl rank. repeat apply bracket_app; try (apply bracket_brief; simpl; lia).
    eapply bracket_mono; [|by apply b_add_owner]. lia.
  - apply bracket_app; [by eapply b_pre|]. apply bracket_app; [by apply b_maybe_status|].
    apply bracket_wrap; [simpl; lia|]. apply b_filter. simpl. lia.
Qed.
Lemma b_get t : t_get t -> bracket 0 t.
Proof.
  destruct 1 as [k|k i]; [apply bracket_brief; simpl; lia|]. apply bracket_app; [apply bracket_brief; simpl; lia|].
  apply (bracket_wrap 0 LStore false [Acq (LAcc i) false; Rel (LAcc i)]); [simpl; lia|]. apply (bracket_brief _ (LAcc i)). simpl. lia.
Qed.
Lemma b_gpa t : t_gpa t -> bracket 0 t.
Proof.
  destruct 1 as [|k|k p retry]; [apply b_filter; lia| |].
  - apply bracket_app; [apply b_filter; lia|apply bracket_brief; simpl; lia].
  - apply bracket_app; [apply b_filter; lia|]. apply bracket_app; [apply bracket_brief; simpl; lia|].
    rewrite (app_assoc (brief (LSet p) false)).
    apply bracket_wrap; [simpl; lia|]. simpl rank. apply bracket_app; [apply bracket_brief; simpl; lia|].
    apply bracket_concat. intros t (i & -> & _)%elem_of_list_fmap. apply bracket_brief. simpl. lia.
Qed.
Lemma b_promote t : t_promote t false -> bracket 2 t.
Proof.
  inversion 1; subst; [by apply bracket_brief|]. apply bracket_wrap; [done|]. by eapply b_update_owner.
Qed.
Lemma b_slot t : t_slot t false -> bracket 0 t.
Proof.
  inversion 1 as [l Hl Ht Hd]; subst. apply bracket_app; [apply bracket_brief; simpl; lia|].
  apply bracket_wrap; [simpl; lia|]. apply bracket_concat. intros t ([t' d] & -> & Hin)%elem_of_list_fmap. simpl.
  apply b_promote. destruct d; [|by apply Hl].
  exfalso. assert (existsb snd l = true) as Ht; [|congruence]. apply existsb_exists. exists (t', true). split; [by apply elem_of_list_In|done].
Qed.
Lemma b_call t : t_call t false -> bracket 0 t.
Proof. inversion 1; subst; [by apply b_update|by apply b_get|by apply b_gpa|by apply b_slot]. Qed.

(** C37, proved part: any number of threads running any calls never get stuck, as long as no slot
    notification drops an account (missing part: it does, see below). *)
Theorem C37_no_deadlock_without_drops_partial : forall calls ths,
  (forall th t, th ∈ calls -> t ∈ th -> t_call t false) -> lreach (start calls) ths -> ~ stuck ths.
Proof.
  intros calls ths Hc Hr [Hex Hno]. assert (all_ordered ths) as Hord.
  { eapply ordered_reach; [|exact Hr]. intros i th Hi. unfold start in Hi. rewrite list_lookup_fmap in Hi.
    destruct (calls !! i) as [l|] eqn:Hl; [|done]. injection Hi as <-. simpl. apply bracket_ordered, bracket_concat.
    intros t Ht. apply b_call. eapply Hc; [|exact Ht]. by eapply elem_of_list_lookup_2. }
  destruct (ordered_progress ths Hord Hex) as [ths' H]. by eapply Hno.
Qed.
Print Assumptions C37_no_deadlock_without_drops_partial.
(** An update of a tracked account and a confirmation promoting it. *)
Definition ex_update : list instr :=
  t_filter ++ (brief (LIdx 1) false ++ brief LSlots true) ++
  [Acq (LIdx 1) true; Acq LStore false; Acq (LAcc 0) true] ++ [] ++ [Rel (LAcc 0); Rel LStore; Rel (LIdx 1)].
Definition ex_confirm : list instr := brief LSlots true ++ [Acq LStore false] ++ concat [brief (LAcc 0) true] ++ [Rel LStore].
Lemma ex_update_call : t_call ex_update false.
Proof. apply c_update, (u_occupied t_filter _ 1 0 [] false); [auto|apply ms_some|apply uo_same]. Qed.
Example C37_example_hyps : forall th t, th ∈ [[ex_update; ex_update]; [ex_confirm]] -> t ∈ th -> t_call t false.
Proof.
  intros th t [-> |[-> |[]%elem_of_nil]%elem_of_cons]%elem_of_cons Ht.
  - apply elem_of_cons in Ht as [-> |[-> |[]%elem_of_nil]%elem_of_cons]; apply ex_update_call.
  - apply elem_of_list_singleton in Ht as ->. apply c_slot.
    apply (s_slot [(brief (LAcc 0) true, false)]). intros t d [= -> ->]%elem_of_list_singleton. apply p_none.
Qed.

(** C37, full statement is false: an update of an account and the finalization of its close block
    each other forever: the update holds the index shard and waits for the entry, the slot
    notification holds the entry and waits for the index shard. *)
Definition ex_finalize : list instr :=
  brief LSlots true ++ [Acq LStore false] ++
  concat [[Acq (LAcc 0) true] ++ brief (LOwn 7) true ++ brief (LIdx 1) true ++ [Rel (LAcc 0)]] ++ [Rel LStore].
Lemma step_to ths ths' ths'' : lstep ths ths' -> rtc lstep ths' ths'' -> rtc lstep ths ths''.
Proof. apply rtc_l. Qed.
Lemma acq_step ths i h l w t ths' : ths !! i = Some (Thread h (Acq l w :: t)) ->
  (if w then Forall (fun th => ~ holds_any th l) ths
   else Forall (fun th => ~ holds_write th l /\ ~ waits_write th l) ths) ->
  ths' = <[i := Thread ((l, w) :: h) t]> ths -> lstep ths ths'.
Proof.
  intros Hi Hm ->. apply lstep_acq; [done|]. destruct w; simpl.
  - intros j th Hj. rewrite Forall_lookup in Hm. by eapply Hm.
  - intros j th Hj. rewrite Forall_lookup in Hm. destruct (Hm _ _ Hj). done.
Qed.
Lemma rel_step ths i h l t ths' : ths !! i = Some (Thread h (Rel l :: t)) ->
  ths' = <[i := Thread (drop_guard l h) t]> ths -> lstep ths ths'.
Proof. intros Hi ->. by apply lstep_rel. Qed.
Ltac no_guard := repeat constructor; unfold holds_any, holds_write, waits_write; simpl;
  repeat match goal with |- ~ _ => intros H | |- _ /\ _ => split end;
  repeat match goal with H : exists _, _ |- _ => destruct H as [? H] end;
  rewrite ?elem_of_cons, ?elem_of_nil in *; intuition congruence.
Ltac go k := eapply step_to;
  [first [eapply (rel_step _ k); [reflexivity|reflexivity] | eapply (acq_step _ k); [reflexivity| |reflexivity]; no_guard] | simpl].
Theorem C37_deadlock_refuted : exists c1 c2 ths,
  t_call c1 false /\ t_call c2 true /\ lreach (start [[c1]; [c2]]) ths /\ stuck ths.
Proof.
  exists ex_update, ex_finalize. eexists. split; [apply ex_update_call|]. split.
  { apply c_slot. apply (s_slot [([Acq (LAcc 0) true] ++ brief (LOwn 7) true ++ brief (LIdx 1) true ++ [Rel (LAcc 0)], true)]).
    intros t d [= -> ->]%elem_of_list_singleton. apply (p_dropped 0 (brief (LOwn 7) true) 1), uo_fin_deleted, add_vacant. }
  split.
  - unfold lreach, start. simpl. do 8 go 0%nat. do 6 go 1%nat. apply rtc_refl.
  - split; [by exists 0%nat; eexists|]. intros ths' Hs. inversion Hs as [i h l w t Hi Hm|i h l t Hi]; subst; clear Hs.
    + destruct i as [|[|i]]; simpl in Hi; [| |done]; simplify_eq/=.
      * apply (Hm 1%nat _ eq_refl). exists true. simpl. set_solver.
      * apply (Hm 0%nat _ eq_refl). exists true. simpl. set_solver.
    + destruct i as [|[|i]]; simpl in Hi; simplify_eq.
Qed.
Print Assumptions C37_deadlock_refuted.
