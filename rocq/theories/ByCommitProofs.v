(** Proofs about the versions of one account. *)
From Verif Require Import Base SMap DataModel FilterModel FilterSpec FilterProofs ByCommitModel ByCommitSpec.

Lemma version_le_refl a : version_le a a.
Proof. right. lia. Qed.
Lemma version_le_trans a b c : version_le a b -> version_le b c -> version_le a c.
Proof. unfold version_le. lia. Qed.
Lemma newer_spec o a : newer o a = true <-> forall x, o = Some x -> ~ version_le a x.
Proof.
  unfold newer, version_le. destruct o as [x|].
  - rewrite orb_true_iff, andb_true_iff, !N.ltb_lt, N.eqb_eq. split.
    + intros H y [= <-]. lia.
    + intros H. specialize (H x eq_refl). lia.
  - naive_solver.
Qed.
Lemma newer_false o a : newer o a = false -> exists x, o = Some x /\ version_le a x.
Proof.
  unfold newer, version_le. destruct o as [x|]; [|done].
  rewrite orb_false_iff, andb_false_iff, !N.ltb_ge, N.eqb_neq. intros. exists x. split; [done|]. lia.
Qed.
Lemma newer_version_le o a x : newer o a = true -> o = Some x -> version_le x a.
Proof. rewrite newer_spec. intros H Hx. specialize (H x Hx). unfold version_le in *. lia. Qed.

(** ** Pruning *)
Lemma prune_sorted s m : sm_sorted m -> sm_sorted (prune s m).
Proof.
  induction m as [|[k a] [|[k2 a2] m] IH]; simpl; intros Hs; [done..|].
  destruct (k <? s); [|done]. apply IH. by apply sm_sorted_cons in Hs as [Hs _].
Qed.
Lemma prune_last s m : last (prune s m) = last m.
Proof.
  induction m as [|[k a] [|[k2 a2] m] IH]; simpl; [done..|]. destruct (k <? s); [|done]. apply IH.
Qed.
Lemma prune_elem s m x : x ∈ prune s m -> x ∈ m.
Proof.
  induction m as [|[k a] [|[k2 a2] m] IH]; simpl; [done..|]. destruct (k <? s); [|done].
  intros H. right. by apply IH.
Qed.
Lemma prune_get s m k : sm_sorted m -> s <= k -> sm_get k (prune s m) = sm_get k m.
Proof.
  intros Hs Hk. induction m as [|[k1 a] [|[k2 a2] m] IH]; [done..|].
  change (prune s ((k1, a) :: (k2, a2) :: m)) with
    (if k1 <? s then prune s ((k2, a2) :: m) else (k1, a) :: (k2, a2) :: m).
  destruct (N.ltb_spec k1 s); [|done].
  apply sm_sorted_cons in Hs as [Hs _]. rewrite IH by done.
  change (sm_get k ((k1, a) :: (k2, a2) :: m)) with (if k =? k1 then Some a else sm_get k ((k2, a2) :: m)).
  by destruct (N.eqb_spec k k1); [lia|].
Qed.
Lemma prune_get_sub s m k v : sm_sorted m -> sm_get k (prune s m) = Some v -> sm_get k m = Some v.
Proof. intros Hs H. apply sm_elem_get; [done|]. eapply prune_elem. by apply sm_get_elem. Qed.
Lemma prune_get_last s m k v : sm_sorted m -> last m = Some (k, v) -> sm_get k (prune s m) = Some v.
Proof.
  intros Hs H. rewrite <- (prune_last s) in H. apply sm_last_spec in H; [naive_solver|by apply prune_sorted].
Qed.
Lemma prune_nonempty s m : m <> [] -> prune s m <> [].
Proof. intros Hm H. apply Hm. apply last_None. rewrite <- (prune_last s), H. done. Qed.

(** ** Shape of a reachable entry *)
Record bc_ok (b : bycom) : Prop := BcOk {
  ok_sorted : sm_sorted (bc_proc b);
  ok_key : forall k a, sm_get k (bc_proc b) = Some a -> d_slot a = k;
  ok_conf : forall x, bc_conf b = Some x -> exists k a, last (bc_proc b) = Some (k, a) /\ d_slot x <= k;
  ok_fin : forall y, bc_fin b = Some y -> exists x, bc_conf b = Some x /\ d_slot y <= d_slot x;
}.

Lemma bc_ok_empty : bc_ok bc_empty.
Proof. constructor; simpl; [apply sm_sorted_nil|done..]. Qed.
Lemma bc_new_update a c : bc_new a c = (bc_update bc_empty a c).1.
Proof. by destruct c. Qed.
Lemma bc_initialize_update a : bc_initialize a = (bc_update bc_empty a Finalized).1.
Proof. done. Qed.

(** The processed map after an update. *)
Definition upd_proc (b : bycom) (a : acct) : smap acct :=
  match sm_get (d_slot a) (bc_proc b) with
  | Some p => if d_wv p <? d_wv a then sm_put (d_slot a) a (bc_proc b) else bc_proc b
  | None => sm_put (d_slot a) a (bc_proc b)
  end.
Definition upd_conf (b : bycom) (a : acct) (c : commitment) : option acct :=
  match c with
  | Processed => bc_conf b
  | _ => if newer (bc_conf b) a then Some a else bc_conf b
  end.
Definition upd_fin (b : bycom) (a : acct) (c : commitment) : option acct :=
  match c with
  | Finalized => if newer (bc_fin b) a then Some a else bc_fin b
  | _ => bc_fin b
  end.
Definition upd_proc_changed (b : bycom) (a : acct) : bool :=
  match sm_get (d_slot a) (bc_proc b) with Some p => d_wv p <? d_wv a | None => true end.
Lemma bc_update_unfold b a c :
  bc_update b a c = (BC (upd_proc b a) (upd_conf b a c) (upd_fin b a c),
    upd_proc_changed b a ||
    match c with Processed => false | Confirmed => newer (bc_conf b) a | Finalized => newer (bc_fin b) a end).
Proof.
  unfold bc_update, upd_proc, upd_conf, upd_fin, upd_proc_changed.
  destruct (sm_get (d_slot a) (bc_proc b)) as [p|]; [destruct (d_wv p <? d_wv a)|];
    destruct c, (newer (bc_conf b) a), (newer (bc_fin b) a); done.
Qed.

Lemma upd_proc_get_ne b a k : k <> d_slot a -> sm_get k (upd_proc b a) = sm_get k (bc_proc b).
Proof.
  intros Hk. unfold upd_proc. destruct (sm_get (d_slot a) (bc_proc b)) as [p|]; [destruct (d_wv p <? d_wv a)|];
    auto using sm_get_put_ne.
Qed.
Lemma upd_proc_get b a :
  exists p, sm_get (d_slot a) (upd_proc b a) = Some p /\ d_wv a <= d_wv p /\
    (p = a \/ sm_get (d_slot a) (bc_proc b) = Some p).
Proof.
  unfold upd_proc. destruct (sm_get (d_slot a) (bc_proc b)) as [p|] eqn:Hp.
  - destruct (N.ltb_spec (d_wv p) (d_wv a)).
    + exists a. rewrite sm_get_put. auto with lia.
    + exists p. rewrite Hp. auto with lia.
  - exists a. rewrite sm_get_put. auto with lia.
Qed.
(** An update never removes a slot and never lowers its write version. *)
Lemma upd_proc_mono b a k p : bc_ok b -> sm_get k (bc_proc b) = Some p ->
  exists p', sm_get k (upd_proc b a) = Some p' /\ version_le p p'.
Proof.
  intros Hok Hp. destruct (N.eq_dec k (d_slot a)) as [->|Hk].
  - unfold upd_proc. rewrite Hp. destruct (N.ltb_spec (d_wv p) (d_wv a)).
    + rewrite sm_get_put. exists a. split; [done|]. apply ok_key in Hp; [|done]. right. lia.
    + exists p. split; [done|]. apply version_le_refl.
  - rewrite upd_proc_get_ne by done. exists p. split; [done|]. apply version_le_refl.
Qed.
Lemma upd_proc_sorted b a : bc_ok b -> sm_sorted (upd_proc b a).
Proof.
  intros Hok. unfold upd_proc. destruct (sm_get _ _) as [p|]; [destruct (_ <? _)|];
    auto using sm_put_sorted, ok_sorted.
Qed.
Lemma upd_proc_key b a k p : bc_ok b -> sm_get k (upd_proc b a) = Some p -> d_slot p = k.
Proof.
  intros Hok. destruct (N.eq_dec k (d_slot a)) as [->|Hk].
  - destruct (upd_proc_get b a) as (p' & Hp' & _ & Hor). rewrite Hp'. intros [= ->].
    destruct Hor as [->|H]; [done|]. by eapply ok_key in H.
  - rewrite upd_proc_get_ne by done. by apply ok_key.
Qed.
(** The last processed version does not go back. *)
Lemma upd_proc_last b a k p : bc_ok b -> last (bc_proc b) = Some (k, p) ->
  exists k' p', last (upd_proc b a) = Some (k', p') /\ version_le p p' /\ k <= k' /\ d_slot a <= k'.
Proof.
  intros Hok Hl. pose proof (upd_proc_sorted b a Hok) as Hs'.
  pose proof Hl as Hl0. apply sm_last_spec in Hl as [Hg Hmax]; [|by apply ok_sorted].
  destruct (sm_last_nonempty (upd_proc b a)) as (k' & p' & Hl').
  { destruct (upd_proc_mono b a k p Hok Hg) as (? & H & _). by intros Hn; rewrite Hn in H. }
  exists k', p'. split; [done|]. apply sm_last_spec in Hl' as [Hg' Hmax']; [|done].
  destruct (upd_proc_mono b a k p Hok Hg) as (p2 & Hp2 & Hle). pose proof (Hmax' _ _ Hp2) as Hkk.
  destruct (upd_proc_get b a) as (pa & Hpa & _ & _). pose proof (Hmax' _ _ Hpa).
  split_and!; try lia. destruct (N.eq_dec k k') as [->|Hne].
  - rewrite Hp2 in Hg'. by injection Hg' as ->.
  - pose proof (ok_key _ Hok _ _ Hg). pose proof (upd_proc_key b a _ _ Hok Hg'). left. lia.
Qed.
Lemma upd_proc_last' b a : bc_ok b ->
  exists k p, last (upd_proc b a) = Some (k, p) /\ d_slot a <= k.
Proof.
  intros Hok. destruct (upd_proc_get b a) as (pa & Hpa & _ & _).
  destruct (sm_last_nonempty (upd_proc b a)) as (k & p & Hl); [by intros Hn; rewrite Hn in Hpa|].
  exists k, p. split; [done|]. apply sm_last_spec in Hl as [_ Hmax]; [eauto|by apply upd_proc_sorted].
Qed.

Lemma bc_ok_update b a c : bc_ok b -> bc_ok (bc_update b a c).1.
Proof.
  intros Hok. rewrite bc_update_unfold. simpl. constructor; simpl.
  - by apply upd_proc_sorted.
  - intros k p. by apply upd_proc_key.
  - intros x Hx. assert (x = a \/ bc_conf b = Some x) as [->|Hx0].
    { destruct c; simpl in Hx; [auto| |]; destruct (newer _ _); naive_solver. }
    + by apply upd_proc_last'.
    + destruct (ok_conf _ Hok _ Hx0) as (k & p & Hl & Hle).
      destruct (upd_proc_last b a k p Hok Hl) as (k' & p' & Hl' & _ & Hkk & _).
      exists k', p'. split; [done|]. lia.
  - intros y Hy. assert ((y = a /\ c = Finalized) \/ bc_fin b = Some y) as [[-> ->]|Hy0].
    { destruct c; simpl in Hy; [auto|auto|]; destruct (newer _ _); naive_solver. }
    + simpl. destruct (newer (bc_conf b) a) eqn:Hn; [eauto with lia|].
      apply newer_false in Hn as (x & Hx & Hle). exists x. split; [done|]. unfold version_le in Hle. lia.
    + destruct (ok_fin _ Hok _ Hy0) as (x & Hx & Hle). unfold upd_conf.
      destruct c; eauto; destruct (newer (bc_conf b) a) eqn:Hn; eauto;
        exists a; (split; [done|]); pose proof (newer_version_le _ _ _ Hn Hx) as H; unfold version_le in H; lia.
Qed.

Lemma bc_promote_proc b s c : (bc_promote b s c).1.(bc_proc) =
  match c with Finalized => prune s (bc_proc b) | _ => bc_proc b end.
Proof.
  unfold bc_promote. destruct (sm_get s (bc_proc b)) as [a|], c; simpl; try done.
  - destruct (bc_conf b) as [x|]; [destruct (_ <? _)|]; done.
  - destruct (bc_fin b) as [x|]; [destruct (_ <? _)|]; done.
Qed.
(** What promotion does to the confirmed / finalized version. *)
Definition promoted (o : option acct) (a : acct) : option acct :=
  match o with Some x => if d_slot x <? d_slot a then Some a else Some x | None => Some a end.
Definition take_over (b : bycom) (s : N) (o : option acct) : option acct :=
  match sm_get s (bc_proc b) with Some a => promoted o a | None => o end.
Lemma bc_promote_conf b s c : (bc_promote b s c).1.(bc_conf) =
  match c with Processed => bc_conf b | _ => take_over b s (bc_conf b) end.
Proof.
  unfold bc_promote, take_over, promoted. destruct (sm_get s (bc_proc b)) as [a|], c; simpl; try done.
  - destruct (bc_conf b) as [x|] eqn:E; [destruct (_ <? _)|]; simpl; by rewrite ?E.
  - destruct (bc_fin b) as [x|]; [destruct (d_slot x <? d_slot a)|]; done.
Qed.
Lemma bc_promote_fin b s c : (bc_promote b s c).1.(bc_fin) =
  match c with Finalized => take_over b s (bc_fin b) | _ => bc_fin b end.
Proof.
  unfold bc_promote, take_over, promoted. destruct (sm_get s (bc_proc b)) as [a|], c; simpl; try done.
  - destruct (bc_conf b) as [x|]; [destruct (_ <? _)|]; done.
  - destruct (bc_fin b) as [x|]; [destruct (d_slot x <? d_slot a)|]; done.
Qed.
Lemma bc_promote_report b s c : (bc_promote b s c).2 =
  match c, sm_get s (bc_proc b) with
  | Processed, _ => None
  | _, None => None
  | _, Some a => match bc_get b c with
                 | Some prev => if d_slot prev <? d_slot a then Some (a, Some prev) else None
                 | None => Some (a, None)
                 end
  end.
Proof.
  unfold bc_promote. destruct (sm_get s (bc_proc b)) as [a|], c; simpl; try done.
  - destruct (bc_conf b) as [x|]; [destruct (_ <? _)|]; done.
  - destruct (bc_fin b) as [x|]; [destruct (_ <? _)|]; done.
Qed.
Lemma promoted_cases o a : exists x, promoted o a = Some x /\
  (x = a \/ o = Some x) /\ d_slot a <= d_slot x /\ (forall y, o = Some y -> version_le y x).
Proof.
  unfold promoted. destruct o as [y|]; [destruct (N.ltb_spec (d_slot y) (d_slot a))|].
  - exists a. split_and!; [done|auto|lia|]. intros z [= <-]. left. lia.
  - exists y. split_and!; [done|auto|lia|]. intros z [= <-]. apply version_le_refl.
  - exists a. split_and!; [done|auto|lia|]. done.
Qed.

Lemma bc_ok_promote b s c : bc_ok b -> bc_ok (bc_promote b s c).1.
Proof.
  intros Hok. constructor.
  - rewrite bc_promote_proc. destruct c; auto using prune_sorted, ok_sorted.
  - intros k p. rewrite bc_promote_proc. destruct c; try apply (ok_key _ Hok).
    intros H%prune_get_sub; [|by apply ok_sorted]. by eapply ok_key in H.
  - intros x. rewrite bc_promote_proc, bc_promote_conf.
    assert (last (match c with Finalized => prune s (bc_proc b) | _ => bc_proc b end) = last (bc_proc b)) as ->.
    { destruct c; try done. apply prune_last. }
    assert (bc_conf b = Some x -> exists k a, last (bc_proc b) = Some (k, a) /\ d_slot x <= k) as H1 by apply (ok_conf _ Hok).
    assert (take_over b s (bc_conf b) = Some x -> exists k a, last (bc_proc b) = Some (k, a) /\ d_slot x <= k).
    { unfold take_over. destruct (sm_get s (bc_proc b)) as [a|] eqn:Ha; [|done].
      destruct (promoted_cases (bc_conf b) a) as (x' & Hx' & [->|?] & _); rewrite Hx'; intros [= ->]; [|auto].
      destruct (sm_last_nonempty (bc_proc b)) as (k & p & Hl); [by intros Hn; rewrite Hn in Ha|].
      exists k, p. split; [done|]. apply sm_last_spec in Hl as [_ Hmax]; [|by apply ok_sorted].
      rewrite (ok_key _ Hok _ _ Ha). eauto. }
    destruct c; done.
  - intros y. rewrite bc_promote_conf, bc_promote_fin. intros Hy.
    assert (bc_fin b = Some y -> exists x, take_over b s (bc_conf b) = Some x /\ d_slot y <= d_slot x) as H1.
    { intros Hy0. destruct (ok_fin _ Hok _ Hy0) as (x & Hx & Hle). unfold take_over.
      destruct (sm_get s (bc_proc b)) as [a|]; [|eauto].
      destruct (promoted_cases (bc_conf b) a) as (x' & Hx' & _ & _ & Hm). exists x'. split; [done|].
      specialize (Hm _ Hx). unfold version_le in Hm. lia. }
    destruct c; [by apply (ok_fin _ Hok)|auto|].
    unfold take_over in Hy. destruct (sm_get s (bc_proc b)) as [a|] eqn:Ha; [|auto].
    destruct (promoted_cases (bc_fin b) a) as (y' & Hy' & [->|Hy0] & _); rewrite Hy' in Hy; injection Hy as ->.
    + unfold take_over. rewrite Ha. destruct (promoted_cases (bc_conf b) y) as (x' & Hx' & _ & Hge & _). eauto.
    + auto.
Qed.

Lemma bc_ok_step b o : bc_ok b -> bc_ok (abc_step b o).
Proof. destruct o; simpl; [apply bc_ok_update|apply bc_ok_promote]. Qed.
Lemma bc_ok_run b h : bc_ok b -> bc_ok (abc_run b h).
Proof. revert b. induction h as [|o h IH]; intros b Hb; simpl; [done|]. by apply IH, bc_ok_step. Qed.
Lemma abc_run_app b h1 h2 : abc_run b (h1 ++ h2) = abc_run (abc_run b h1) h2.
Proof. apply fold_left_app. Qed.

(** ** Monotonicity *)
Lemma bc_get_mono b o c a : bc_ok b -> bc_get b c = Some a ->
  exists a', bc_get (abc_step b o) c = Some a' /\ version_le a a'.
Proof.
  intros Hok. assert (forall x, bc_conf b = Some x -> exists x', bc_conf (abc_step b o) = Some x' /\ version_le x x') as Hc.
  { intros x Hx. destruct o as [d c'|s c']; simpl.
    - rewrite bc_update_unfold. simpl. destruct c'; simpl; eauto using version_le_refl;
        destruct (newer _ _) eqn:Hn; eauto using newer_version_le, version_le_refl.
    - rewrite bc_promote_conf. unfold take_over.
      destruct c'; eauto using version_le_refl; destruct (sm_get _ _) as [d|]; eauto using version_le_refl;
        destruct (promoted_cases (bc_conf b) d) as (x' & ? & _ & _ & Hm); eauto. }
  destruct c; simpl.
  - destruct (last (bc_proc b)) as [[k p]|] eqn:Hl.
    + intros [= ->]. destruct o as [d c'|s c']; simpl.
      * rewrite bc_update_unfold. simpl.
        destruct (upd_proc_last b d k a Hok Hl) as (k' & p' & -> & Hle & _). eauto.
      * rewrite bc_promote_proc. destruct c'; rewrite ?prune_last, Hl; eauto using version_le_refl.
    + intros Hx. destruct (ok_conf _ Hok _ Hx) as (k & p & Hl' & _). congruence.
  - apply Hc.
  - intros Hy. destruct o as [d c'|s c']; simpl.
    + rewrite bc_update_unfold. simpl. destruct c'; simpl; eauto using version_le_refl.
      destruct (newer _ _) eqn:Hn; eauto using newer_version_le, version_le_refl.
    + rewrite bc_promote_fin. unfold take_over.
      destruct c'; eauto using version_le_refl; destruct (sm_get _ _) as [d|]; eauto using version_le_refl.
      destruct (promoted_cases (bc_fin b) d) as (x' & ? & _ & _ & Hm); eauto.
Qed.

Lemma bc_ladder b : bc_ok b ->
  (forall y, bc_get b Finalized = Some y -> exists x, bc_get b Confirmed = Some x /\ d_slot y <= d_slot x) /\
  (forall x, bc_get b Confirmed = Some x -> exists p, bc_get b Processed = Some p /\ d_slot x <= d_slot p).
Proof.
  intros Hok. split; simpl; [apply (ok_fin _ Hok)|].
  intros x Hx. destruct (ok_conf _ Hok _ Hx) as (k & p & Hl & Hle). rewrite Hl. exists p. split; [done|].
  apply sm_last_spec in Hl as [Hg _]; [|by apply ok_sorted]. by rewrite (ok_key _ Hok _ _ Hg).
Qed.

(** ** Delivery order *)
(** What an entry contains after a history of updates only. *)
Record best_ok (h : list abc_op) (b : bycom) : Prop := {
  bo_ok : bc_ok b;
  bo_proc : forall s a, sm_get s (bc_proc b) = Some a ->
     newest (fun x => (exists c, AUpdate x c ∈ h) /\ d_slot x = s) a;
  bo_proc_none : forall a c, AUpdate a c ∈ h -> is_Some (sm_get (d_slot a) (bc_proc b));
  bo_conf : match bc_conf b with
            | Some a => newest (delivered h Confirmed) a
            | None => forall a, ~ delivered h Confirmed a end;
  bo_fin : match bc_fin b with
            | Some a => newest (delivered h Finalized) a
            | None => forall a, ~ delivered h Finalized a end;
}.
Lemma version_le_total a b : version_le a b \/ version_le b a.
Proof. unfold version_le. lia. Qed.
Lemma delivered_snoc h a c k x :
  delivered (h ++ [AUpdate a c]) k x <-> delivered h k x \/ (x = a /\ at_least k c).
Proof.
  unfold delivered. setoid_rewrite elem_of_app. setoid_rewrite elem_of_list_singleton. split.
  - intros (c' & [H|H] & Hle); [eauto|]. injection H as -> ->. auto.
  - intros [(c' & H & Hle)|[-> Hle]]; eauto.
Qed.
Lemma best_level h a c k (o : option acct) :
  match o with Some x => newest (delivered h k) x | None => forall x, ~ delivered h k x end ->
  forall o', (at_least k c -> o' = if newer o a then Some a else o) -> (~ at_least k c -> o' = o) ->
  match o' with Some x => newest (delivered (h ++ [AUpdate a c]) k) x
              | None => forall x, ~ delivered (h ++ [AUpdate a c]) k x end.
Proof.
  intros Ho o' H1 H2. destruct (decide (rank k <= rank c)) as [Hle|Hle].
  - rewrite (H1 Hle). destruct (newer o a) eqn:Hn.
    + split; [apply delivered_snoc; auto|]. intros x [Hx|[-> _]]%delivered_snoc; [|apply version_le_refl].
      destruct o as [y|]; [|by apply Ho in Hx]. destruct Ho as [_ Ho].
      eapply version_le_trans; [by apply Ho|]. by eapply newer_version_le.
    + apply newer_false in Hn as (y & -> & Hy). destruct Ho as [Hd Hmax].
      split; [apply delivered_snoc; auto|]. intros x [Hx|[-> _]]%delivered_snoc; auto.
  - rewrite (H2 Hle). destruct o as [y|].
    + destruct Ho as [Hd Hmax]. split; [apply delivered_snoc; auto|].
      intros x [Hx|[-> Hx]]%delivered_snoc; auto. done.
    + intros x [Hx|[-> Hx]]%delivered_snoc; [by eapply Ho|done].
Qed.
Lemma best_ok_step h b a c : best_ok h b -> best_ok (h ++ [AUpdate a c]) (bc_update b a c).1.
Proof.
  intros [Hok Hp Hpn Hc Hf]. rewrite bc_update_unfold. simpl.
  constructor; simpl.
  - pose proof (bc_ok_update b a c Hok) as H. by rewrite bc_update_unfold in H.
  - intros s p Hg. destruct (N.eq_dec s (d_slot a)) as [->|Hne].
    + unfold upd_proc in Hg. destruct (sm_get (d_slot a) (bc_proc b)) as [q|] eqn:Hq.
      * destruct (Hp _ _ Hq) as [[[cq Hin] Hsl] Hmax].
        destruct (N.ltb_spec (d_wv q) (d_wv a)) as [Hlt|Hge].
        -- rewrite sm_get_put in Hg. injection Hg as <-. split.
           { split; [|done]. exists c. apply elem_of_app. right. left. }
           intros x [[cx Hx] Hsx]. apply elem_of_app in Hx as [Hx|Hx%elem_of_list_singleton].
           ++ eapply version_le_trans; [apply Hmax; eauto|]. right. lia.
           ++ injection Hx as -> ->. apply version_le_refl.
        -- rewrite Hq in Hg. injection Hg as <-. split.
           { split; [|done]. exists cq. apply elem_of_app. by left. }
           intros x [[cx Hx] Hsx]. apply elem_of_app in Hx as [Hx|Hx%elem_of_list_singleton].
           ++ apply Hmax; eauto.
           ++ injection Hx as -> ->. right. lia.
      * rewrite sm_get_put in Hg. injection Hg as <-. split.
        { split; [|done]. exists c. apply elem_of_app. right. left. }
        intros x [[cx Hx] Hsx]. apply elem_of_app in Hx as [Hx|Hx%elem_of_list_singleton].
        -- destruct (Hpn _ _ Hx) as [? H]. rewrite Hsx, Hq in H. done.
        -- injection Hx as -> ->. apply version_le_refl.
    + rewrite upd_proc_get_ne in Hg by done. destruct (Hp _ _ Hg) as [[[cq Hin] Hsl] Hmax]. split.
      { split; [|done]. exists cq. apply elem_of_app. by left. }
      intros x [[cx Hx] Hsx]. apply elem_of_app in Hx as [Hx|Hx%elem_of_list_singleton].
      * apply Hmax; eauto.
      * injection Hx as -> ->. done.
  - intros x cx Hx. apply elem_of_app in Hx as [Hx|Hx%elem_of_list_singleton].
    + destruct (Hpn _ _ Hx) as [p Hg]. destruct (upd_proc_mono b a _ _ Hok Hg) as (p' & ? & _). eauto.
    + injection Hx as -> ->. destruct (upd_proc_get b a) as (p & ? & _). eauto.
  - eapply best_level; [exact Hc|..]; unfold at_least; destruct c; simpl; try done; lia.
  - eapply best_level; [exact Hf|..]; unfold at_least; destruct c; simpl; try done; lia.
Qed.
Lemma best_ok_run h : only_updates h -> best_ok h (abc_run bc_empty h).
Proof.
  induction h as [|o h IH] using rev_ind; intros Hu.
  - simpl. assert (forall k a, ~ delivered [] k a) by (intros k a (c & Hc & _); by apply elem_of_nil in Hc).
    constructor; simpl; eauto using bc_ok_empty; [done|]. intros a c Hin. by apply elem_of_nil in Hin.
  - rewrite abc_run_app. simpl. destruct (Hu o) as (a & c & ->); [apply elem_of_app; right; left|].
    apply best_ok_step, IH. intros o' Ho'. apply Hu. apply elem_of_app. by left.
Qed.
Lemma newest_wins h c : only_updates h ->
  match bc_get (abc_run bc_empty h) c with
  | Some a => newest (delivered h c) a
  | None => forall a, ~ delivered h c a
  end.
Proof.
  intros Hu. destruct (best_ok_run h Hu) as [Hok Hp Hpn Hc Hf]. destruct c; [|done|done]. simpl.
  assert (forall a, delivered h Processed a <-> exists c, AUpdate a c ∈ h) as Hdel.
  { intros a. split; [intros (c & ? & _); eauto|]. intros [c Hin]. exists c. split; [done|]. unfold at_least. destruct c; simpl; lia. }
  destruct (last (bc_proc (abc_run bc_empty h))) as [[k p]|] eqn:Hl.
  - apply sm_last_spec in Hl as [Hg Hmax]; [|by apply ok_sorted].
    destruct (Hp _ _ Hg) as [[Hin Hs] Hm]. split; [by apply Hdel|].
    intros x [cx Hx]%Hdel. destruct (Hpn _ _ Hx) as [px Hpx]. pose proof (Hmax _ _ Hpx).
    destruct (N.eq_dec (d_slot x) k) as [He|Hne]; [apply Hm; eauto|]. left. lia.
  - apply last_None in Hl. destruct (bc_conf (abc_run bc_empty h)) as [x|] eqn:Hx.
    + destruct (ok_conf _ Hok _ Hx) as (k & p & Hl' & _). by rewrite Hl in Hl'.
    + intros a [ca Ha]%Hdel. destruct (Hpn _ _ Ha) as [q Hq]. by rewrite Hl in Hq.
Qed.
Lemma newest_unique h c a a' : coherent h ->
  newest (delivered h c) a -> newest (delivered h c) a' -> a = a'.
Proof.
  intros Hco [(c1 & Hin1 & Hle1) H1] [(c2 & Hin2 & Hle2) H2].
  assert (version_le a' a) by (apply H1; by exists c2). assert (version_le a a') by (apply H2; by exists c1).
  unfold version_le in *. eapply Hco; eauto; lia.
Qed.
Lemma delivered_perm h h' c a : Permutation h h' -> delivered h c a -> delivered h' c a.
Proof. intros Hp (c' & Hin & Hle). exists c'. split; [by rewrite <- Hp|done]. Qed.
Lemma order_irrelevant h h' c : only_updates h -> coherent h -> Permutation h h' ->
  bc_get (abc_run bc_empty h) c = bc_get (abc_run bc_empty h') c.
Proof.
  intros Hu Hco Hp. pose proof (newest_wins h c Hu) as H1.
  assert (only_updates h') as Hu'. { intros o Ho. apply Hu. by rewrite Hp. }
  pose proof (newest_wins h' c Hu') as H2. symmetry in Hp.
  destruct (bc_get (abc_run bc_empty h) c) as [a|], (bc_get (abc_run bc_empty h') c) as [a'|]; [|exfalso..|done].
  - f_equal. eapply newest_unique; [done|done|]. destruct H2 as [Hd Hm]. split; [by eapply delivered_perm|].
    intros x Hx. apply Hm. symmetry in Hp. by eapply delivered_perm.
  - destruct H1 as [Hd _]. eapply H2. symmetry in Hp. by eapply delivered_perm.
  - destruct H2 as [Hd _]. eapply H1. by eapply delivered_perm.
Qed.

(** ** Promotion *)
(** After any history not finalized past slot [s], slot [s] still holds its newest write. *)
Lemma slot_kept h s :
  not_finalized_past h s ->
  match sm_get s (bc_proc (abc_run bc_empty h)) with
  | Some a => slot_write h s a
  | None => forall a c, AUpdate a c ∈ h -> d_slot a <> s
  end.
Proof.
  induction h as [|o h IH] using rev_ind; intros Hn.
  - simpl. intros a c H. by apply elem_of_nil in H.
  - assert (not_finalized_past h s) as Hn'. { intros s' H. apply Hn. apply elem_of_app. by left. }
    specialize (IH Hn'). rewrite abc_run_app. simpl. set (b := abc_run bc_empty h) in *.
    assert (bc_ok b) as Hok by apply bc_ok_run, bc_ok_empty. destruct o as [a c|s' c]; simpl.
    + rewrite bc_update_unfold. simpl. destruct (N.eq_dec s (d_slot a)) as [->|Hne].
      * destruct (upd_proc_get b a) as (p & Hg & Hw & Hor). rewrite Hg. destruct Hor as [->|Hp].
        -- destruct (sm_get (d_slot a) (bc_proc b)) as [q|] eqn:Hq.
           ++ split; [split; [|done]; exists c; apply elem_of_app; right; left|].
              intros x [[cx Hx] Hsx]. apply elem_of_app in Hx as [Hx|Hx%elem_of_list_singleton].
              ** destruct IH as [_ Hm]. eapply version_le_trans; [apply Hm; eauto|].
                 destruct (upd_proc_mono b a _ _ Hok Hq) as (? & H1 & H2). rewrite Hg in H1. by injection H1 as <-.
              ** injection Hx as -> ->. apply version_le_refl.
           ++ split; [split; [|done]; exists c; apply elem_of_app; right; left|].
              intros x [[cx Hx] Hsx]. apply elem_of_app in Hx as [Hx|Hx%elem_of_list_singleton].
              ** by destruct (IH _ _ Hx).
              ** injection Hx as -> ->. apply version_le_refl.
        -- rewrite Hp in IH. destruct IH as [[[cp Hin] Hs] Hm].
           split; [split; [|done]; exists cp; apply elem_of_app; by left|].
           intros x [[cx Hx] Hsx]. apply elem_of_app in Hx as [Hx|Hx%elem_of_list_singleton].
           ++ apply Hm; eauto.
           ++ injection Hx as -> ->. right. lia.
      * rewrite upd_proc_get_ne by done. destruct (sm_get s (bc_proc b)) as [p|].
        -- destruct IH as [[[cp Hin] Hs] Hm]. split; [split; [|done]; exists cp; apply elem_of_app; by left|].
           intros x [[cx Hx] Hsx]. apply elem_of_app in Hx as [Hx|Hx%elem_of_list_singleton].
           ++ apply Hm; eauto.
           ++ by injection Hx as -> ->.
        -- intros x cx Hx. apply elem_of_app in Hx as [Hx|Hx%elem_of_list_singleton]; [eauto|].
           by injection Hx as -> ->.
    + rewrite bc_promote_proc.
      assert (sm_get s (match c with Finalized => prune s' (bc_proc b) | _ => bc_proc b end) = sm_get s (bc_proc b)) as ->.
      { destruct c; try done. apply prune_get; [by apply ok_sorted|]. apply Hn. apply elem_of_app. right. left. }
      assert (forall x c0, AUpdate x c0 ∈ h ++ [APromote s' c] <-> AUpdate x c0 ∈ h) as Hin.
      { intros. rewrite elem_of_app, elem_of_list_singleton. naive_solver. }
      destruct (sm_get s (bc_proc b)) as [p|].
      * unfold slot_write, newest in *. by setoid_rewrite Hin.
      * by setoid_rewrite Hin.
Qed.

(** What is published by promotion, in terms of the history. *)
Lemma promotion_exact h s c b b' r :
  b = abc_run bc_empty h -> bc_promote b s c = (b', r) -> c <> Processed -> not_finalized_past h s ->
  (forall a, slot_write h s a ->
     (coherent h ->
      bc_get b' c = match bc_get b c with
                    | Some x => if d_slot x <? s then Some a else Some x
                    | None => Some a end) /\
     is_Some (bc_get b' c)) /\
  ((forall a c', AUpdate a c' ∈ h -> d_slot a <> s) -> forall c', bc_get b' c' = bc_get b c' /\ r = None).
Proof.
  intros -> Hpr Hc Hn. set (b := abc_run bc_empty h) in *.
  assert (bc_ok b) as Hok by apply bc_ok_run, bc_ok_empty.
  pose proof (slot_kept h s Hn) as Hk. change (abc_run bc_empty h) with b in Hk.
  assert (b' = (bc_promote b s c).1 /\ r = (bc_promote b s c).2) as [-> ->] by (by rewrite Hpr). clear Hpr.
  split.
  - intros a Ha. assert (sm_get s (bc_proc b) <> None) as Hne.
    { intros H. rewrite H in Hk. destruct Ha as [[[? ?] ?] _]. by eapply Hk. }
    destruct (sm_get s (bc_proc b)) as [a'|] eqn:Hg; [|done].
    assert (bc_get (bc_promote b s c).1 c = promoted (bc_get b c) a') as Heq.
    { destruct c; simpl; [done| |].
      - rewrite bc_promote_conf. unfold take_over. by rewrite Hg.
      - rewrite bc_promote_fin. unfold take_over. by rewrite Hg. }
    rewrite Heq. split.
    + intros Hco. assert (a' = a) as ->.
      { destruct Ha as [[[c1 H1] Hs1] Hm1], Hk as [[[c2 H2] Hs2] Hm2].
        assert (version_le a a') by eauto. assert (version_le a' a) by eauto.
        unfold version_le in *. eapply Hco; eauto; lia. }
      unfold promoted. destruct Ha as [[_ Hs] _]. by rewrite Hs.
    + destruct (promoted_cases (bc_get b c) a') as (x & -> & _). eauto.
  - intros Hno c'. assert (sm_get s (bc_proc b) = None) as Hg.
    { destruct (sm_get s (bc_proc b)) as [a|]; [|done]. destruct Hk as [[[? Hin] Hs] _]. by destruct (Hno _ _ Hin). }
    split.
    + destruct c'; simpl; rewrite ?bc_promote_proc, ?bc_promote_conf, ?bc_promote_fin; unfold take_over; rewrite ?Hg.
      * destruct c; rewrite ?prune_last; done.
      * by destruct c.
      * by destruct c.
    + rewrite bc_promote_report, Hg. by destruct c.
Qed.
Lemma promotion_report b s c b' r : bc_ok b -> bc_promote b s c = (b', r) ->
  bc_get b' Processed = bc_get b Processed /\
  match r with
  | Some (a, prev) => bc_get b' c = Some a /\ bc_get b c = prev /\ d_slot a = s /\
                      (forall x, prev = Some x -> d_slot x < s)
  | None => bc_get b' c = bc_get b c
  end /\
  (c <> Finalized -> bc_get b' Finalized = bc_get b Finalized) /\
  (c = Processed -> bc_get b' Confirmed = bc_get b Confirmed) /\
  (c = Finalized -> forall x, bc_get b' Confirmed = Some x ->
     bc_get b Confirmed = Some x \/ (d_slot x = s /\ forall y, bc_get b Confirmed = Some y -> d_slot y < s)).
Proof.
  intros Hok Hpr. assert (b' = (bc_promote b s c).1 /\ r = (bc_promote b s c).2) as [-> ->] by (by rewrite Hpr).
  clear Hpr. assert (bc_get (bc_promote b s c).1 Processed = bc_get b Processed) as HP.
  { unfold bc_get. rewrite bc_promote_proc, bc_promote_conf.
    assert (last (match c with Finalized => prune s (bc_proc b) | _ => bc_proc b end) = last (bc_proc b)) as ->
      by (destruct c; rewrite ?prune_last; done).
    destruct (last (bc_proc b)) as [[k p]|] eqn:Hl; [done|]. apply last_None in Hl.
    unfold take_over. rewrite Hl. by destruct c. }
  split; [done|]. split; cycle 1.
  { split; [intros Hc; simpl; rewrite bc_promote_fin; by destruct c|].
    split; [intros ->; simpl; by rewrite bc_promote_conf|].
    intros -> x. simpl. rewrite bc_promote_conf. unfold take_over.
    destruct (sm_get s (bc_proc b)) as [a|] eqn:Hg; [|auto]. pose proof (ok_key _ Hok _ _ Hg) as Hs.
    unfold promoted. destruct (bc_conf b) as [y|]; [destruct (N.ltb_spec (d_slot y) (d_slot a))|];
      intros [= <-]; auto; right; (split; [done|]); [|done]. intros z [= <-]. lia. }
  rewrite bc_promote_report. destruct c.
  - done.
  - assert (bc_get (bc_promote b s Confirmed).1 Confirmed = take_over b s (bc_conf b)) as ->
      by apply bc_promote_conf. unfold take_over.
    destruct (sm_get s (bc_proc b)) as [a|] eqn:Hg; [|done]. pose proof (ok_key _ Hok _ _ Hg) as Hs.
    simpl. destruct (bc_conf b) as [x|]; simpl.
    + destruct (N.ltb_spec (d_slot x) (d_slot a)); [|done]. split_and!; try done. intros y [= <-]. lia.
    + done.
  - assert (bc_get (bc_promote b s Finalized).1 Finalized = take_over b s (bc_fin b)) as ->
      by apply bc_promote_fin. unfold take_over.
    destruct (sm_get s (bc_proc b)) as [a|] eqn:Hg; [|done]. pose proof (ok_key _ Hok _ _ Hg) as Hs.
    simpl. destruct (bc_fin b) as [x|]; simpl.
    + destruct (N.ltb_spec (d_slot x) (d_slot a)); [|done]. split_and!; try done. intros y [= <-]. lia.
    + done.
Qed.

(** ** Filtered reads *)
Lemma forallb_sizes fl a (d : bytes) : data_len (d_data a) = lenN d ->
  forallb (fun f => match f with Datasize n => data_len (d_data a) =? n | _ => true end) fl = false ->
  exists n, Datasize n ∈ fl /\ lenN d <> n.
Proof.
  intros Hlen. induction fl as [|f fl IH]; simpl; [done|].
  rewrite andb_false_iff. intros [H|H].
  - destruct f as [n|]; [|done]. apply N.eqb_neq in H. exists n. split; [left|]. by rewrite <- Hlen.
  - destruct (IH H) as (n & Hin & Hn). exists n. split; [by right|done].
Qed.
Lemma filtered_read E b c fl a d :
  Forall (decodable_cond E) fl -> bc_get b c = Some a -> plain E a d -> data_len (d_data a) = lenN d ->
  exists r, bc_get_filtered E b c fl = Done r /\
    (is_Some r <-> forall x, x ∈ fl -> holds E x d) /\
    (forall a', r = Some a' -> same_account E a' a /\ (fl <> [] -> d_data a' = DRaw d)).
Proof.
  intros Hd Hg Hp Hlen. unfold bc_get_filtered. rewrite Hg.
  assert (forall x, same_account E x x) as Hrefl by (unfold same_account; done).
  destruct (forallb _ fl) eqn:Hsz.
  - assert (exists ok, all_r (fun f => allows E f d) fl = Done ok /\ (ok = true <-> forall x, x ∈ fl -> holds E x d)) as (ok & Hok & Hiff).
    { destruct (all_r (fun f => allows E f d) fl) as [ok|] eqn:Hok; cycle 1.
      { exfalso. revert Hok. apply all_r_nopanic. intros x Hx. rewrite Forall_forall in Hd.
        destruct (allows_total E x d (Hd x Hx)) as [? ->]. done. }
      exists ok. split; [done|]. split.
      - intros ->. intros x Hx. apply allows_true. by apply (proj1 (all_r_true _ _) Hok).
      - intros H. assert (all_r (fun f => allows E f d) fl = Done true) as H'.
        { apply all_r_true. intros x Hx. by apply allows_true, H. }
        congruence. }
    destruct fl as [|f fl].
    { exists (Some a). split; [done|]. split.
      - split; [|eauto]. intros _ x Hx. by apply elem_of_nil in Hx.
      - intros a' [= <-]. split; [done|done]. }
    unfold plain in Hp. destruct (d_data a) as [d0|b0 n0|b0 n0] eqn:Hda.
    + simpl in Hp. injection Hp as <-. rewrite Hok. simpl. eexists. split; [done|]. split.
      * rewrite <- Hiff. destruct ok; [by split; eauto|]. split; [intros [? ?]; done|done].
      * intros a' Ha'. destruct ok; [|done]. injection Ha' as <-. done.
    + rewrite Hp. unfold mbind at 1, res_bind. rewrite Hok. simpl. eexists. split; [done|]. split.
      * rewrite <- Hiff. destruct ok; [by split; eauto|]. split; [intros [? ?]; done|done].
      * intros a' Ha'. destruct ok; [|done]. injection Ha' as <-. split; [|done].
        unfold same_account. simpl. rewrite Hda. by rewrite Hp.
    + rewrite Hp. unfold mbind at 1, res_bind. rewrite Hok. simpl. eexists. split; [done|]. split.
      * rewrite <- Hiff. destruct ok; [by split; eauto|]. split; [intros [? ?]; done|done].
      * intros a' Ha'. destruct ok; [|done]. injection Ha' as <-. split; [|done].
        unfold same_account. simpl. rewrite Hda. by rewrite Hp.
  - exists None. split; [done|]. split; [|done]. split; [intros [? ?]; done|]. intros H.
    destruct (forallb_sizes fl a d Hlen Hsz) as (n & Hin & Hn). by destruct Hn; apply (H _ Hin).
Qed.
