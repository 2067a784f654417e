(** C26, exactly: which repeated account updates are harmless.  The update is delivered and delivered again at once
    (update_account, inmemory_account_store.rs 205-264), the filters may have changed in between. *)
From Verif Require Import Base SMap DataModel FilterModel FilterSpec FilterProofs FilterProps BincodeModel
  ByCommitModel ByCommitSpec ByCommitProofs StoreModel StoreSpec StoreProofs StoreSlot StoreViews StoreHist StoreEffects StoreProps.

(** Levels in order, and "the slot is known at a higher level than the update was sent with". *)
Definition height (c : commitment) : N := match c with Processed => 0 | Confirmed => 1 | Finalized => 2 end.
Definition slot_ahead (st : store) (s : N) (c : commitment) : Prop :=
  exists k, slot_commit st s = Some k /\ height c < height k.

(** The two ways in which a repetition is felt: the account is not tracked after the first delivery (dropped, or refused by
    the filters of then) and is now wanted; or the first delivery made the account known, at the level it was sent with, although its slot is already further. *)
Definition felt (F' : filt) (st st1 : store) (a : acct) (c : commitment) : Prop :=
  (~ tracked st1 (d_pubkey a) /\ fl_sat F' a = true) \/
  (~ tracked st (d_pubkey a) /\ tracked st1 (d_pubkey a) /\ slot_ahead st (d_slot a) c).

Lemma insert_version F st a c : st_index st !! d_pubkey a = None -> fl_sat F a = true ->
  exists st2, update_account F st a c = Done (st2, true) /\ version_at st2 (d_pubkey a) c = Some a.
Proof.
  intros Hi Hs. unfold update_account, maybe_update_status. rewrite Hs, Hi. simpl. rewrite andb_false_r. simpl.
  destruct (add_to_status _ _ _ _) as [sl' k] eqn:Hadd. eexists. split; [reflexivity|].
  unfold version_at. simpl. rewrite lookup_insert. simpl. rewrite lookup_app_r by lia. rewrite Nat.sub_diag. simpl.
  destruct c; done.
Qed.
Lemma ahead_update a c k : height c < height k ->
  bc_get (bc_new a c) k = None /\ exists b', bc_update (bc_new a c) a k = (b', true) /\ bc_get b' k = Some a.
Proof.
  intros Hlt. unfold bc_update, bc_new. simpl. rewrite N.eqb_refl, N.ltb_irrefl.
  destruct c, k; simpl in *; try lia; (split; [reflexivity|]); eexists; split; reflexivity.
Qed.
Lemma behind_update a c k : height k <= height c -> bc_update (bc_new a c) a k = (bc_new a c, false).
Proof.
  intros Hle. unfold bc_update, bc_new. simpl. rewrite N.eqb_refl, N.ltb_irrefl.
  destruct c, k; simpl in *; try lia; rewrite ?N.ltb_irrefl, ?N.eqb_refl; reflexivity.
Qed.
(** The second delivery to an account which the first one made known. *)
Lemma again_new F st a c st1 r : st_ok st -> update_account F st a c = Done (st1, r) ->
  st_index st !! d_pubkey a = None -> is_Some (st_index st1 !! d_pubkey a) ->
  forall k, effective st a c = k ->
  exists sl' i, st1 = Store (<[d_pubkey a := i]> (st_index st)) (add_owner (st_owners st) i (d_owner a)) sl' (st_accounts st ++ [bc_new a c]) /\
    i = length (st_accounts st) /\ add_to_status sl' (d_slot a) i c = (sl', k).
Proof.
  intros Hok H Hn [j Ht] k Hk. apply update_account_inv in H; [|done].
  destruct H as [Hi Hs|sl' cx Hi Hs Hadd|i b sl' c' b' upd ow' Hi Hb Hadd Hu Hud Hud0|i b sl' c' b' prev ow' Hi Hb Hadd Hu Hprev Hud]; [congruence| |congruence|congruence].
  exists sl', (length (st_accounts st)). split; [done|]. split; [done|].
  pose proof (add_to_status_again _ _ _ _ _ _ Hadd) as Hagain. rewrite Hagain. f_equal.
  subst k. unfold effective. by destruct c.
Qed.

Theorem C26_update_redelivery_exact : forall E F F' st a c st1 r,
  reachable E st -> update_account F st a c = Done (st1, r) ->
  (~ felt F' st st1 a c -> update_account F' st1 a c = Done (st1, false)) /\
  (felt F' st st1 a c -> exists st2 k, update_account F' st1 a c = Done (st2, true) /\
     version_at st1 (d_pubkey a) k <> Some a /\ version_at st2 (d_pubkey a) k = Some a).
Proof.
  intros E F F' st a c st1 r Hr Hu. pose proof (reachable_ok _ _ Hr) as Hok. split.
  - intros Hnf.
    assert (tracked st1 (d_pubkey a) \/ fl_sat F' a = false) as Htr.
    { unfold tracked. destruct (st_index st1 !! d_pubkey a) as [j|] eqn:Hj; [left; by eexists|].
      destruct (fl_sat F' a) eqn:Hs; [|by right]. exfalso. apply Hnf. left. split; [|done]. unfold tracked. rewrite Hj. by intros [? ?]. }
    destruct (st_index st !! d_pubkey a) as [i|] eqn:Hi.
    { eapply redeliver; [done|exact Hu|done|left; by eexists]. }
    destruct (decide (effective st a c = c)) as [He|He].
    { eapply redeliver; [done|exact Hu|done|by right]. }
    destruct (st_index st1 !! d_pubkey a) as [j|] eqn:Hj.
    2:{ apply update_refused; [done|]. destruct Htr as [[? Ht]|Ht]; [congruence|done]. }
    destruct (again_new _ _ _ _ _ _ Hok Hu Hi (ex_intro _ _ Hj) _ eq_refl) as (sl' & n & -> & -> & Hadd).
    eapply update_unchanged; simpl; [apply lookup_insert| |exact Hadd| |done].
    { rewrite lookup_app_r by lia. by rewrite Nat.sub_diag. }
    apply behind_update. destruct (N.le_gt_cases (height (effective st a c)) (height c)) as [|Hlt]; [done|].
    exfalso. apply Hnf. right. split; [|split].
    + unfold tracked. rewrite Hi. by intros [? ?].
    + by eexists.
    + exists (effective st a c). split; [|done]. unfold effective, slot_commit in *.
      destruct c; [| |done]; (destruct (st_slots st !! d_slot a); [done|done]).
  - intros [[Hn Hs]|(Hn & Ht & k & Hk & Hlt)].
    + assert (st_index st1 !! d_pubkey a = None) as Hn'.
      { destruct (st_index st1 !! d_pubkey a) eqn:Hj; [|done]. exfalso. apply Hn. by eexists. }
      destruct (insert_version F' st1 a c Hn' Hs) as (st2 & H2 & Hv). exists st2, c. split; [done|]. split; [|done].
      unfold version_at. by rewrite Hn'.
    + assert (st_index st !! d_pubkey a = None) as Hn'.
      { destruct (st_index st !! d_pubkey a) eqn:Hj; [|done]. exfalso. apply Hn. by eexists. }
      assert (effective st a c = k) as He.
      { unfold effective, slot_commit in *. destruct (st_slots st !! d_slot a) as [ss|]; [|done]. injection Hk as Hk.
        destruct c; [done|done|]. destruct k; simpl in Hlt; lia. }
      destruct (again_new _ _ _ _ _ _ Hok Hu Hn' Ht _ He) as (sl' & n & -> & -> & Hadd).
      destruct (ahead_update a c k Hlt) as (H0 & b' & Hb' & Hg).
      unfold update_account, contains_key, maybe_update_status. simpl.
      rewrite lookup_insert, bool_decide_true by (by eexists). simpl. rewrite andb_false_r, Hadd.
      rewrite lookup_app_r by lia. rewrite Nat.sub_diag. simpl. rewrite Hb', H0.
      eexists _, k. split; [reflexivity|]. unfold version_at. simpl. rewrite lookup_insert. simpl. split.
      * rewrite lookup_app_r by lia. rewrite Nat.sub_diag. simpl. by rewrite H0.
      * rewrite list_lookup_insert by (rewrite app_length; simpl; lia). done.
Qed.
Print Assumptions C26_update_redelivery_exact.
(** Both sides occur: a repeated update of a tracked account, an update sent at Confirmed for a slot known at Processed only, and
    (felt) a new account in a slot already confirmed, and a closed account delivered again. *)
Example C26_exact_example : exists st st1, reachable ext_sample st /\
  update_account admit_all st (acc5 10 1) Confirmed = Done (st1, true) /\ slot_commit st 10 = Some Processed /\
  ~ tracked st 5 /\ ~ felt admit_all st st1 (acc5 10 1) Confirmed.
Proof.
  set (h := [slt 10 9 Processed]).
  exists (final h), (final (h ++ [upd (acc5 10 1) Confirmed])). split; [exists h; crunch|]. split; [crunch|]. split; [crunch|].
  split; [intros [x Hx]; vm_compute in Hx; discriminate Hx|].
  intros [[Hn _]|(_ & _ & k & Hk & Hlt)].
  - apply Hn. eexists. vm_compute. reflexivity.
  - vm_compute in Hk. injection Hk as <-. vm_compute in Hlt. discriminate Hlt.
Qed.
Example C26_exact_felt_example : exists st st1 st' st1',
  (reachable ext_sample st /\ update_account admit_all st (acc5 10 1) Processed = Done (st1, true) /\
     felt admit_all st st1 (acc5 10 1) Processed) /\
  (reachable ext_sample st' /\ update_account admit_all st' (closed5 11 1) Finalized = Done (st1', true) /\
     felt admit_all st' st1' (closed5 11 1) Finalized).
Proof.
  set (h := [slt 10 9 Processed; slt 10 9 Confirmed]). set (h' := [upd (acc5 10 1) Finalized]).
  exists (final h), (final (h ++ [upd (acc5 10 1) Processed])), (final h'), (final (h' ++ [upd (closed5 11 1) Finalized])).
  split.
  - split; [exists h; crunch|]. split; [crunch|]. right.
    split; [intros [x Hx]; vm_compute in Hx; discriminate Hx|]. split; [eexists; vm_compute; reflexivity|].
    exists Confirmed. split; vm_compute; reflexivity.
  - split; [exists h'; crunch|]. split; [crunch|]. left.
    split; [|vm_compute; reflexivity]. intros [x Hx]; vm_compute in Hx; discriminate Hx.
Qed.
