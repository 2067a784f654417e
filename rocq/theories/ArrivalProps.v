(** C108: the order in which account updates arrive does not matter (update_account, inmemory_account_store.rs 205-264): after the
    same updates in another order the store answers every later request and notification in the same way. *)
From Verif Require Import Base SMap DataModel FilterModel FilterSpec FilterProofs FilterProps BincodeModel
  ByCommitModel ByCommitSpec ByCommitProofs StoreModel StoreSpec StoreProofs StoreSlot StoreViews StoreHist StoreEffects StoreProps ArrivalSpec AlikeProofs.

(** Updates sent at processed (or all at confirmed), in slots not known at another level, told apart by slot and write version:
    both orders are accepted, and no later reads, updates, slot notifications, loads (under any filters) tell the two stores apart. *)
Theorem C108_arrival_order : forall E c st us us',
  reachable E st -> c <> Finalized -> Forall (heard c st) us -> told_apart us -> Permutation us us' ->
  exists s s', run E st (batch c us) = Done s /\ run E st (batch c us') = Done s' /\
    forall h, (forall F o, (F, o) ∈ h -> ~ lists o) -> indistinct E s s' h.
Proof.
  intros E c st us us' Hr Hc Hh Ht HP. pose proof (reachable_ok _ _ Hr) as Hok.
  destruct (batch_run c E us st Hok) as (s & Hs & Ho). destruct (batch_run c E us' st Hok) as (s' & Hs' & Ho').
  exists s, s'. split; [done|]. split; [done|]. intros h Hl.
  apply (alike_indistinct false); [done|done| |intros F o Hin Hlo; by destruct (Hl F o Hin)].
  by apply (perm_alike c false E us us' Hc HP st).
Qed.
Print Assumptions C108_arrival_order.

(** If no account of the batch changes its owner, program queries and snapshots cannot tell them apart either (up to the order of the listed accounts). *)
Theorem C108_arrival_order_lists : forall E c st us us',
  reachable E st -> c <> Finalized -> Forall (heard c st) us -> told_apart us -> one_owner c st us -> Permutation us us' ->
  exists s s', run E st (batch c us) = Done s /\ run E st (batch c us') = Done s' /\ forall h, indistinct E s s' h.
Proof.
  intros E c st us us' Hr Hc Hh Ht Hone HP. pose proof (reachable_ok _ _ Hr) as Hok.
  destruct (batch_run c E us st Hok) as (s & Hs & Ho). destruct (batch_run c E us' st Hok) as (s' & Hs' & Ho').
  exists s, s'. split; [done|]. split; [done|]. intros h.
  apply (alike_indistinct true); [done|done| |done]. by apply (perm_alike c true E us us' Hc HP st).
Qed.
Print Assumptions C108_arrival_order_lists.

(** A batch for a known and two new accounts, with a closed version and two versions of one slot; the entries are numbered differently in the two orders. *)
Definition us108 : list (filt * acct) :=
  [(admit_all, acc5 11 4); (admit_all, mk_acct 6 7 4 (bs [2]) 11 2); (admit_all, acc5 11 6); (admit_all, mk_acct 9 7 0 [] 12 3); (admit_all, acc5 10 9)].
Example C108_example : exists st s s', reachable ext_sample st /\ Forall (heard Processed st) us108 /\ told_apart us108 /\ one_owner Processed st us108 /\
  Permutation us108 (rev us108) /\ run ext_sample st (batch Processed us108) = Done s /\ run ext_sample st (batch Processed (rev us108)) = Done s' /\
  st_index s <> st_index s' /\ version_at s 5 Processed = Some (acc5 11 6).
Proof.
  set (h := [slt 10 9 Processed; upd (acc5 10 1) Processed]).
  exists (final h), (final (h ++ batch Processed us108)), (final (h ++ batch Processed (rev us108))).
  split; [exists h; crunch|]. split.
  { apply Forall_forall. intros u Hu. unfold us108 in Hu. rewrite !elem_of_cons, elem_of_nil in Hu. destruct_or?; subst u; (split; [right; done|]);
      intros k Hk; vm_compute in Hk; congruence. }
  split.
  { intros u v Hu Hv. unfold us108 in *. rewrite !elem_of_cons, elem_of_nil in Hu, Hv. destruct_or?; subst u v; simpl; intros; done. }
  split.
  { split.
    - intros u v Hu Hv. unfold us108 in *. rewrite !elem_of_cons, elem_of_nil in Hu, Hv. destruct_or?; subst u v; simpl; intros; done.
    - intros u x Hu Hx. unfold us108 in *. rewrite !elem_of_cons, elem_of_nil in Hu. destruct_or?; subst u; vm_compute in Hx; [injection Hx as <-|..]; try done; injection Hx as <-; done. }
  split; [apply Permutation_rev|]. split; [crunch|]. split; [crunch|]. split; [|crunch].
  intros He. apply (f_equal (fun m => m !! 9)) in He. vm_compute in He. discriminate He.
Qed.

(** The conditions are needed.  Program queries: an account changes its owner to P by a closed and an open version; if the closed one arrives first, it is never listed under P. *)
Theorem C108_queries_refuted : exists E st us us' s s' F p l l', reachable E st /\ Forall (heard Processed st) us /\ told_apart us /\ Permutation us us' /\
  run E st (batch Processed us) = Done s /\ run E st (batch Processed us') = Done s' /\
  get_program_accounts E F s p (Some []) Processed = Done (ROk l) /\ get_program_accounts E F s' p (Some []) Processed = Done (ROk l') /\ length l <> length l'.
Proof.
  set (h := [upd (acc5 10 1) Processed]).
  set (us := [(admit_all, mk_acct 5 8 0 [] 11 1); (admit_all, mk_acct 5 8 1 [] 12 1)]).
  exists ext_sample, (final h), us, (rev us), (final (h ++ batch Processed us)), (final (h ++ batch Processed (rev us))), admit_all, 8, [], [mk_acct 5 8 1 [] 12 1].
  split; [exists h; crunch|]. split.
  { apply Forall_forall. intros u Hu. unfold us in Hu. rewrite !elem_of_cons, elem_of_nil in Hu. destruct_or?; subst u; (split; [right; done|]);
      intros k Hk; vm_compute in Hk; congruence. }
  split; [intros u v Hu Hv; unfold us in *; rewrite !elem_of_cons, elem_of_nil in Hu, Hv; destruct_or?; subst u v; simpl; intros; done|].
  split; [apply Permutation_rev|]. split; [crunch|]. split; [crunch|]. split; [crunch|]. split; [crunch|]. done.
Qed.
Print Assumptions C108_queries_refuted.
(** Reads: two versions of a new account in a slot that is already confirmed; the first to arrive is stored at the level it was sent with, the second at confirmed. *)
Theorem C108_known_slot_refuted : exists E st us us' s s' pk, reachable E st /\ Forall (fun u => fl_sat u.1 u.2 = true) us /\ told_apart us /\ Permutation us us' /\
  run E st (batch Processed us) = Done s /\ run E st (batch Processed us') = Done s' /\ get_account s pk Confirmed <> get_account s' pk Confirmed.
Proof.
  set (h := [slt 10 9 Confirmed]). set (us := [(admit_all, acc5 10 1); (admit_all, acc5 10 2)]).
  exists ext_sample, (final h), us, (rev us), (final (h ++ batch Processed us)), (final (h ++ batch Processed (rev us))), 5.
  split; [exists h; crunch|]. split; [by repeat constructor|].
  split; [intros u v Hu Hv; unfold us in *; rewrite !elem_of_cons, elem_of_nil in Hu, Hv; destruct_or?; subst u v; simpl; intros; done|].
  split; [apply Permutation_rev|]. split; [crunch|]. split; [crunch|]. intros He. vm_compute in He. discriminate He.
Qed.
Print Assumptions C108_known_slot_refuted.
(** Reads: a version that the filters do not want is applied if the account is already tracked, and lost otherwise. *)
Theorem C108_unwanted_refuted : exists E st us us' s s' pk, reachable E st /\ (forall u k, u ∈ us -> slot_commit st (d_slot u.2) = Some k -> k = Processed) /\ told_apart us /\ Permutation us us' /\
  run E st (batch Processed us) = Done s /\ run E st (batch Processed us') = Done s' /\ get_account s pk Processed <> get_account s' pk Processed.
Proof.
  set (F7 := Filt (fun a => d_owner a =? 7) (fun _ => true)).
  set (us := [(F7, acc5 10 1); (F7, mk_acct 5 8 1 [] 11 1)]).
  exists ext_sample, store_empty, us, (rev us), (final (batch Processed us)), (final (batch Processed (rev us))), 5.
  split; [exists []; done|]. split; [intros u k _ Hk; unfold slot_commit in Hk; simpl in Hk; rewrite lookup_empty in Hk; done|].
  split; [intros u v Hu Hv; unfold us in *; rewrite !elem_of_cons, elem_of_nil in Hu, Hv; destruct_or?; subst u v; simpl; intros; done|].
  split; [apply Permutation_rev|]. split; [crunch|]. split; [crunch|]. intros He. vm_compute in He. discriminate He.
Qed.
Print Assumptions C108_unwanted_refuted.
