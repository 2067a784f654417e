(** The token store never deadlocks (C78). *)
From Verif Require Import Base LockModel LockProps TokenLockModel.

(** ** Every call acquires in the order of [rank] *)
Lemma b_within r l w t : (r <= rank l)%nat -> bracket (S (rank l)) t -> bracket r (within l w t).
Proof. apply bracket_wrap. Qed.
Lemma b_walk c i n h k : (forall j, rank (c j) < rank (c (S j)))%nat -> (forall l w, (l, w) ∈ h -> (rank l < rank (c i))%nat) ->
  ordered h k -> ordered ((c i, false) :: h) (walk c i n ++ k).
Proof.
  intros Hc. revert i. induction n as [|n IH]; intros i Hh Hk; simpl.
  - by rewrite bool_decide_true.
  - pose proof (Hc i) as Hi. split.
    + intros l w [[= -> ->]|Hin]%elem_of_cons; [done|]. specialize (Hh _ _ Hin). lia.
    + rewrite bool_decide_false by (intros He; rewrite He in Hi; lia). rewrite bool_decide_true by done.
      apply IH; [|done]. intros l w Hin. specialize (Hh _ _ Hin). lia.
Qed.
Lemma b_iter r c n : (forall j, rank (c j) < rank (c (S j)))%nat -> (r <= rank (c 0%nat))%nat -> bracket r (iter_shards c n).
Proof.
  intros Hc Hr h k Hh Hk. unfold iter_shards. simpl. split.
  - intros l w Hin. specialize (Hh _ _ Hin). lia.
  - apply b_walk; [done| |done]. intros l w Hin. specialize (Hh _ _ Hin). lia.
Qed.
Ltac bb := repeat first
  [ apply bracket_nil | assumption
  | apply b_within; [simpl; lia|]
  | apply bracket_brief; simpl; lia
  | apply b_iter; [intros ?; simpl; lia|simpl; lia]
  | apply bracket_app ].
Lemma b_lookup t : t_lookup t -> bracket 8 t.
Proof. destruct 1; bb. Qed.
Lemma b_save t : t_save t -> bracket 8 t.
Proof. destruct 1; bb. Qed.
Lemma b_delete t : t_delete t -> bracket 8 t.
Proof. destruct 1; bb. Qed.
Lemma b_to_solana t : t_to_solana t -> bracket 10 t.
Proof. destruct 1; bb. Qed.
Lemma b_to_solanas r (ts : list (list instr)) : (r <= 10)%nat -> (forall t, t ∈ ts -> t_to_solana t) -> bracket r (concat ts).
Proof. intros Hr H. apply bracket_concat. intros t Ht. eapply bracket_mono; [exact Hr|]. by apply b_to_solana, H. Qed.
Lemma b_rows r : (r <= 9)%nat -> bracket r t_rows.
Proof. intros. by apply bracket_brief. Qed.
Lemma b_pend_write r : (r <= 8)%nat -> bracket r t_pend_write.
Proof. intros. by apply bracket_brief. Qed.
Lemma b_processed_for t : t_processed_for t -> bracket 7 t.
Proof.
  destruct 1 as [ts Hts|].
  - apply b_within; [simpl; lia|]. apply b_to_solanas; [simpl; lia|done].
  - bb.
Qed.
Lemma b_get_accounts t : t_get_accounts t -> bracket 7 t.
Proof. destruct 1; bb. Qed.
Ltac up H := eapply bracket_mono; [|by apply H]; lia.
Lemma b_is_token t : t_is_token t -> bracket 7 t.
Proof. destruct 1; bb. up b_lookup. Qed.
Lemma b_classify t : t_classify t -> bracket 7 t.
Proof. destruct 1; bb. Qed.
Lemma b_add_finalized t : t_add_finalized t -> bracket 7 t.
Proof. destruct 1; bb; first [up b_save|up b_delete]. Qed.
Lemma b_tupdate t : t_tupdate t -> bracket 7 t.
Proof.
  destruct 1; bb; first [by apply b_is_token|by apply b_classify|by apply b_add_finalized|apply b_pend_write; lia].
Qed.
Lemma b_get_finalized t : t_get_finalized t -> bracket 7 t.
Proof. destruct 1; bb; first [up b_lookup|up b_to_solana]. Qed.
Lemma b_tget t : t_tget t -> bracket 7 t.
Proof. destruct 1; bb; first [by apply b_get_finalized|by apply b_get_accounts|up b_to_solana]. Qed.
Lemma b_gpa_finalized t : t_gpa_finalized t -> bracket 7 t.
Proof.
  destruct 1; bb; try (apply b_rows; simpl; lia); try (apply b_to_solanas; [simpl; lia|done]).
Qed.
Lemma b_tgpa t : t_tgpa t -> bracket 7 t.
Proof. destruct 1; bb; first [by apply b_gpa_finalized|by apply b_get_accounts|apply b_to_solanas; [lia|done]]. Qed.
Lemma b_tslot t : t_tslot t -> bracket 7 t.
Proof.
  assert (bracket 7 t_pend_write) by (apply b_pend_write; lia).
  assert (forall u, u = [] \/ u = t_pend_write -> bracket 7 u) as Hu by (intros u [-> | ->]; [apply bracket_nil|done]).
  destruct 1; [done| |].
  - apply bracket_app; [by apply Hu|by apply b_processed_for].
  - apply bracket_app; [by apply Hu|]. apply bracket_app; [done|]. apply bracket_app; [apply b_to_solanas; [lia|done]|].
    apply bracket_concat. intros t Ht. by apply b_add_finalized, H2.
Qed.
Lemma b_tsnap t : t_tsnap t -> bracket 7 t.
Proof.
  destruct 1; [apply bracket_nil|]. apply bracket_app; [apply b_iter; [intros j; simpl; lia|simpl; lia]|].
  apply bracket_app; [apply b_iter; [intros j; simpl; lia|simpl; lia]|apply b_rows; lia].
Qed.
Lemma b_load_mint t : t_load_mint t -> bracket 7 t.
Proof. destruct 1; bb. Qed.
Lemma b_push l t : t_push l t -> bracket (rank l) t.
Proof. destruct 1; bb. Qed.
Lemma b_load_row t : t_load_row t -> bracket 7 t.
Proof.
  destruct 1 as [t Hs|t o m p q Hs Hp Hq]; bb; [up b_save|up b_save| |].
  - eapply bracket_mono; [|by apply (b_push (TByOwner o))]. simpl. lia.
  - eapply bracket_mono; [|by apply (b_push (TByMint m))]. simpl. lia.
Qed.
Lemma b_tload t : t_tload t -> bracket 7 t.
Proof.
  destruct 1 as [|multis mints rows Hm Hr]; [apply bracket_nil|].
  repeat apply bracket_app; apply bracket_concat; intros t Ht.
  - apply elem_of_list_fmap in Ht as (k & -> & _). apply bracket_brief. simpl. lia.
  - by apply b_load_mint, Hm.
  - by apply b_load_row, Hr.
Qed.
Lemma b_tcall t : t_tcall t -> bracket 0 t.
Proof.
  intros H. apply (bracket_mono 0 7); [lia|].
  destruct H; [by apply b_tupdate|by apply b_tget|by apply b_tgpa|by apply b_tslot|by apply b_tsnap|by apply b_tload].
Qed.

(** ** Calls come to an end *)
Definition todo (ths : list thread) : nat := list_sum (map (fun th => length (th_todo th)) ths).
Lemma todo_insert ths i th x : ths !! i = Some th -> (todo (<[i := x]> ths) + length (th_todo th) = todo ths + length (th_todo x))%nat.
Proof.
  revert i. induction ths as [|y ths IH]; intros [|i] Hi; simpl in *; [done|done| |].
  - injection Hi as ->. unfold todo. simpl. lia.
  - specialize (IH i Hi). unfold todo in *. simpl. lia.
Qed.
Lemma lstep_todo ths ths' : lstep ths ths' -> todo ths = S (todo ths').
Proof.
  destruct 1 as [i h l w t Hi _|i h l t Hi].
  - pose proof (todo_insert _ _ _ (Thread ((l, w) :: h) t) Hi) as H. simpl in H. lia.
  - pose proof (todo_insert _ _ _ (Thread (drop_guard l h) t) Hi) as H. simpl in H. lia.
Qed.
Lemma todo_none ths : todo ths = 0%nat -> forall i th, ths !! i = Some th -> th_todo th = [].
Proof.
  induction ths as [|x ths IH]; intros H i th Hi; [by rewrite lookup_nil in Hi|].
  unfold todo in H. simpl in H. destruct i as [|i]; simpl in Hi.
  - injection Hi as <-. destruct (th_todo x); [done|]. simpl in H. lia.
  - apply (IH ltac:(unfold todo; lia) i th Hi).
Qed.
Lemma busy_dec (ths : list thread) : (forall i th, ths !! i = Some th -> th_todo th = []) \/ exists i th, ths !! i = Some th /\ th_todo th <> [].
Proof.
  destruct (find_thread (fun th => th_todo th <> []) ths) as [H|H]; [by right|]. left. intros i th Hi.
  specialize (H _ _ Hi). destruct (th_todo th); [done|]. exfalso. by apply H.
Qed.
Lemma ordered_completes ths : all_ordered ths ->
  exists ths', nsteps lstep (todo ths) ths ths' /\ forall i th, ths' !! i = Some th -> th = Thread [] [].
Proof.
  remember (todo ths) as n eqn:Hn. revert ths Hn. induction n as [|n IH]; intros ths Hn Hord.
  - exists ths. split; [constructor|]. intros i th Hi. pose proof (todo_none ths (eq_sym Hn) _ _ Hi) as Ht.
    pose proof (Hord _ _ Hi) as Ho. destruct th as [h t]. simpl in *. subst t. simpl in Ho. by subst h.
  - destruct (busy_dec ths) as [Hidle|Hbusy].
    { exfalso. assert (todo ths = 0%nat) as H0; [|lia]. clear -Hidle. induction ths as [|x ths IH]; [done|].
      unfold todo in *. simpl. rewrite (Hidle 0%nat x eq_refl). simpl. apply IH. intros i th Hi. apply (Hidle (S i) th Hi). }
    destruct (ordered_progress ths Hord Hbusy) as [ths1 H1]. pose proof (lstep_todo _ _ H1) as Ht.
    destruct (IH ths1) as (ths' & Hs & Hd); [lia|by eapply ordered_step|].
    exists ths'. split; [|done]. by econstructor.
Qed.

(** ** C78 *)
(** A call of either store that is not a slot notification dropping an account of the account store. *)
Definition safe_call (t : list instr) : Prop := t_tcall t \/ t_call t false.
Lemma safe_ordered calls : (forall th t, th ∈ calls -> t ∈ th -> safe_call t) -> all_ordered (start calls).
Proof.
  intros Hc i th Hi. unfold start in Hi. rewrite list_lookup_fmap in Hi.
  destruct (calls !! i) as [l|] eqn:Hl; [|done]. injection Hi as <-. simpl. apply bracket_ordered, bracket_concat.
  intros t Ht. destruct (Hc l t) as [H|H]; [by eapply elem_of_list_lookup_2|done|by apply b_tcall|by apply b_call].
Qed.
(** Any number of threads running any calls of the token store never get stuck. *)
Theorem C78_token_no_deadlock : forall calls ths,
  (forall th t, th ∈ calls -> t ∈ th -> t_tcall t) -> lreach (start calls) ths -> ~ stuck ths.
Proof.
  intros calls ths Hc Hr [Hex Hno].
  destruct (ordered_progress ths) as [ths' H]; [|done|by eapply Hno].
  eapply ordered_reach; [|exact Hr]. apply safe_ordered. intros th t Hth Ht. left. by eapply Hc.
Qed.
Print Assumptions C78_token_no_deadlock.
(** Whatever has happened so far, all calls can still return, with no lock left behind; and no
    execution goes on for longer than there are lock operations. *)
Theorem C78_token_completes : forall calls ths,
  (forall th t, th ∈ calls -> t ∈ th -> t_tcall t) -> lreach (start calls) ths ->
  (exists ths', lreach ths ths' /\ forall i th, ths' !! i = Some th -> th_held th = [] /\ th_todo th = []) /\
  forall n ths', nsteps lstep n ths ths' -> (n <= list_sum (map (fun th => length (th_todo th)) ths))%nat.
Proof.
  intros calls ths Hc Hr. split.
  - destruct (ordered_completes ths) as (ths' & Hs & Hd).
    { eapply ordered_reach; [|exact Hr]. apply safe_ordered. intros th t Hth Ht. left. by eapply Hc. }
    exists ths'. split; [by eapply rtc_nsteps_2|]. intros i th Hi. by rewrite (Hd _ _ Hi).
  - intros n ths' Hs. change (n <= todo ths)%nat. clear Hc Hr. induction Hs as [|n x y z Hxy _ IH]; [lia|].
    rewrite (lstep_todo _ _ Hxy). lia.
Qed.
Print Assumptions C78_token_completes.
(** C37, proved part: the two stores may be used by the same threads, as long as no slot notification
    drops an account of the account store. *)
Theorem C37_both_stores_partial : forall calls ths,
  (forall th t, th ∈ calls -> t ∈ th -> t_tcall t \/ t_call t false) -> lreach (start calls) ths -> ~ stuck ths.
Proof.
  intros calls ths Hc Hr [Hex Hno].
  destruct (ordered_progress ths) as [ths' H]; [|done|by eapply Hno].
  eapply ordered_reach; [|exact Hr]. by apply safe_ordered.
Qed.
Print Assumptions C37_both_stores_partial.

(** A query by mint, a finalization adding a mint and a token account, and a snapshot over two shards. *)
Definition ex_by_mint : list instr :=
  within (TMintIdx 0) false (within (TByMint 3) false (t_rows ++ concat [brief (TMint 1) false; brief (TMint 1) false])).
Definition ex_final : list instr :=
  t_pend_write ++ t_pend_write ++ concat [brief (TMint 1) false] ++
  concat [within (TMintIdx 0) true (brief (TMint 1) true);
          within (TKey 5) true (brief TTable true) ++ brief (TByMint 3) true ++ brief (TByOwner 2) true].
Definition ex_snap : list instr := iter_shards TMint 1 ++ iter_shards TMulti 1 ++ t_rows.
Lemma ex_tcalls : t_tcall ex_by_mint /\ t_tcall ex_final /\ t_tcall ex_snap.
Proof.
  split; [|split].
  - apply tc_gpa, tp_final, gp_mint. intros t [-> |[-> |[]%elem_of_nil]%elem_of_cons]%elem_of_cons; apply ts_mint.
  - apply tc_slot, sl_finalized; [by right| |].
    + intros t ->%elem_of_list_singleton. apply ts_mint.
    + intros t [-> |[-> |[]%elem_of_nil]%elem_of_cons]%elem_of_cons; [apply af_mint|apply af_added, sv].
  - apply tc_snap, sn.
Qed.
Example C78_example_hyps : forall th t, th ∈ [[ex_by_mint; ex_snap]; [ex_final; ex_final]; [ex_snap]] -> t ∈ th -> t_tcall t.
Proof.
  destruct ex_tcalls as (H1 & H2 & H3). intros th t Hth Ht.
  repeat (apply elem_of_cons in Hth as [-> |Hth]; [repeat (apply elem_of_cons in Ht as [-> |Ht]; [done|]); by apply elem_of_nil in Ht|]).
  by apply elem_of_nil in Hth.
Qed.
(** The threads do contend: a state in which the query has to wait for the finalization. *)
Definition ex_contended : list thread :=
  [Thread [] ex_by_mint; Thread [(TMintIdx 0, true)] (drop 7 ex_final)].
Example C78_example_contended :
  lreach (start [[ex_by_mint]; [ex_final]]) ex_contended /\ ~ may_acquire ex_contended 0 (TMintIdx 0) false.
Proof.
  split.
  - unfold lreach, start. simpl. do 7 go 1%nat. apply rtc_refl.
  - intros H. destruct (H 1%nat _ eq_refl) as [Hw _]. apply Hw. unfold holds_write. simpl. set_solver.
Qed.
Example C37_example_both : forall th t, th ∈ [[ex_by_mint; ex_update]; [ex_update; ex_final]] -> t ∈ th -> t_tcall t \/ t_call t false.
Proof.
  destruct ex_tcalls as (H1 & H2 & H3). pose proof ex_update_call as H4. intros th t Hth Ht.
  repeat (apply elem_of_cons in Hth as [-> |Hth];
    [repeat (apply elem_of_cons in Ht as [-> |Ht]; [first [left; done|right; done]|]); by apply elem_of_nil in Ht|]).
  by apply elem_of_nil in Hth.
Qed.
