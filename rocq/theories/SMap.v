(** Lemmas on sorted association lists ([BTreeMap<u64, _>]). *)
From Verif Require Import Base.

Section smap.
Context {A : Type}.
Implicit Types (m : smap A) (k : N) (v : A).

Lemma sm_sorted_cons k v m :
  sm_sorted ((k, v) :: m) <-> sm_sorted m /\ forall k' v', (k', v') ∈ m -> k < k'.
Proof.
  unfold sm_sorted. simpl. split.
  - intros H. pose proof (Sorted_inv H) as [Hs _]. split; [done|].
    apply Sorted_StronglySorted in H; [|intros ? ? ?; lia].
    apply StronglySorted_inv in H as [_ H]. rewrite Forall_forall in H.
    intros k' v' Hin. apply H. apply elem_of_list_fmap. by exists (k', v').
  - intros [Hs Hlt]. constructor; [done|]. destruct m as [|[k2 v2] m]; simpl; constructor.
    eapply Hlt. left.
Qed.
Lemma sm_sorted_nil : sm_sorted (@nil (N * A)).
Proof. constructor. Qed.

Lemma sm_get_elem k v m : sm_get k m = Some v -> (k, v) ∈ m.
Proof.
  induction m as [|[k' v'] m IH]; simpl; [done|]. destruct (N.eqb_spec k k') as [->|]; intros H.
  - injection H as ->. left.
  - right. auto.
Qed.
Lemma sm_elem_get k v m : sm_sorted m -> (k, v) ∈ m -> sm_get k m = Some v.
Proof.
  induction m as [|[k' v'] m IH]; intros Hs Hin; simpl; [by apply elem_of_nil in Hin|].
  apply sm_sorted_cons in Hs as [Hs Hlt]. apply elem_of_cons in Hin as [Heq|Hin].
  - injection Heq as -> ->. by rewrite N.eqb_refl.
  - pose proof (Hlt _ _ Hin). destruct (N.eqb_spec k k'); [lia|]. auto.
Qed.
Lemma sm_get_spec k v m : sm_sorted m -> sm_get k m = Some v <-> (k, v) ∈ m.
Proof. split; [apply sm_get_elem|by apply sm_elem_get]. Qed.
Lemma sm_get_None k m : sm_get k m = None <-> forall v, (k, v) ∉ m.
Proof.
  induction m as [|[k' v'] m IH]; simpl.
  - split; [|done]. intros _ v H. by apply elem_of_nil in H.
  - destruct (N.eqb_spec k k') as [->|Hne].
    + split; [done|]. intros H. exfalso. apply (H v'). left.
    + rewrite IH. split; intros H v; specialize (H v); rewrite elem_of_cons in *; naive_solver.
Qed.

Lemma sm_put_elem k v m k' v' : (k', v') ∈ sm_put k v m -> (k', v') = (k, v) \/ (k', v') ∈ m.
Proof.
  induction m as [|[k2 v2] m IH]; simpl.
  - rewrite elem_of_list_singleton. auto.
  - destruct (k <? k2); [rewrite elem_of_cons; naive_solver|].
    destruct (k =? k2); rewrite !elem_of_cons; naive_solver.
Qed.
Lemma sm_put_sorted k v m : sm_sorted m -> sm_sorted (sm_put k v m).
Proof.
  induction m as [|[k2 v2] m IH]; intros Hs; simpl.
  - apply sm_sorted_cons. split; [apply sm_sorted_nil|]. intros ? ? H. by apply elem_of_nil in H.
  - pose proof Hs as Hs0. apply sm_sorted_cons in Hs as [Hs Hlt].
    destruct (N.ltb_spec k k2).
    + apply sm_sorted_cons. split; [done|]. intros k' v' [Heq|Hin]%elem_of_cons.
      * by injection Heq as -> ->.
      * pose proof (Hlt _ _ Hin). lia.
    + destruct (N.eqb_spec k k2) as [->|].
      * apply sm_sorted_cons. auto.
      * apply sm_sorted_cons. split; [auto|]. intros k' v' [Heq|Hin]%sm_put_elem.
        -- injection Heq as -> ->. lia.
        -- eauto.
Qed.
Lemma sm_get_put k v m : sm_get k (sm_put k v m) = Some v.
Proof.
  induction m as [|[k2 v2] m IH]; simpl; [by rewrite N.eqb_refl|].
  destruct (N.ltb_spec k k2); simpl; [by rewrite N.eqb_refl|].
  destruct (N.eqb_spec k k2) as [->|]; simpl; [by rewrite N.eqb_refl|].
  destruct (N.eqb_spec k k2); [done|]. done.
Qed.
Lemma sm_get_put_ne k k' v m : k <> k' -> sm_get k' (sm_put k v m) = sm_get k' m.
Proof.
  intros Hne. induction m as [|[k2 v2] m IH]; simpl.
  - by destruct (N.eqb_spec k' k).
  - destruct (N.ltb_spec k k2); simpl; [by destruct (N.eqb_spec k' k)|].
    destruct (N.eqb_spec k k2) as [->|]; simpl.
    + by destruct (N.eqb_spec k' k2).
    + by rewrite IH.
Qed.
Lemma sm_put_same k v m : sm_sorted m -> sm_get k m = Some v -> sm_put k v m = m.
Proof.
  induction m as [|[k2 v2] m IH]; simpl; [done|]. intros [Hs Hlt]%sm_sorted_cons.
  destruct (N.eqb_spec k k2) as [->|].
  - intros [= ->]. by rewrite N.ltb_irrefl.
  - intros Hg. pose proof (Hlt _ _ (sm_get_elem _ _ _ Hg)). destruct (N.ltb_spec k k2); [lia|].
    by rewrite IH.
Qed.
Lemma sm_put_nonempty k v m : sm_put k v m <> [].
Proof. destruct m as [|[k2 v2] m]; simpl; [done|]. destruct (k <? k2), (k =? k2); done. Qed.

(** The last entry has the greatest key. *)
Lemma sm_last_spec m k v : sm_sorted m ->
  last m = Some (k, v) <-> sm_get k m = Some v /\ forall k' v', sm_get k' m = Some v' -> k' <= k.
Proof.
  intros Hs. setoid_rewrite (fun k v => sm_get_spec k v m Hs).
  revert k v. induction m as [|[k2 v2] m IH]; intros k v.
  - simpl. split; [done|]. intros [H _]. by apply elem_of_nil in H.
  - pose proof Hs as Hs0. apply sm_sorted_cons in Hs as [Hs Hlt].
    destruct m as [|[k3 v3] m].
    + simpl. split.
      * intros [= <- <-]. split; [left|]. intros k' v' H%elem_of_list_singleton. simplify_eq. lia.
      * intros [H%elem_of_list_singleton _]. by simplify_eq.
    + change (last ((k2, v2) :: (k3, v3) :: m)) with (last ((k3, v3) :: m)). rewrite IH by done. split.
      * intros [Hin Hmax]. split; [by right|]. intros k' v' [Heq|H]%elem_of_cons; [|eauto].
        simplify_eq. pose proof (Hlt _ _ Hin). lia.
      * intros [Hin Hmax]. split; [|intros; eapply Hmax; by right].
        apply elem_of_cons in Hin as [Heq|Hin]; [|done]. simplify_eq.
        specialize (Hmax k3 v3). specialize (Hlt k3 v3).
        assert (k2 < k3) by (apply Hlt; left). assert (k3 <= k2) by (apply Hmax; right; left). lia.
Qed.
Lemma sm_last_nonempty m : m <> [] -> exists k v, last m = Some (k, v).
Proof.
  intros Hm. destruct (last m) as [[k v]|] eqn:H; [eauto|]. by apply last_None in H.
Qed.
Lemma sm_ext m1 m2 : sm_sorted m1 -> sm_sorted m2 -> (forall k, sm_get k m1 = sm_get k m2) -> m1 = m2.
Proof.
  revert m2. induction m1 as [|[k1 v1] m1 IH]; intros [|[k2 v2] m2] Hs1 Hs2 Heq.
  - done.
  - specialize (Heq k2). simpl in Heq. by rewrite N.eqb_refl in Heq.
  - specialize (Heq k1). simpl in Heq. by rewrite N.eqb_refl in Heq.
  - apply sm_sorted_cons in Hs1 as [Hs1 Hlt1]. apply sm_sorted_cons in Hs2 as [Hs2 Hlt2].
    assert (k1 = k2) as ->.
    { pose proof (Heq k1) as H1. pose proof (Heq k2) as H2. simpl in H1, H2. rewrite N.eqb_refl in H1, H2.
      destruct (N.eqb_spec k1 k2) as [|Hne]; [done|].
      destruct (N.eqb_spec k2 k1) as [|_]; [done|].
      symmetry in H1. apply sm_get_elem, Hlt2 in H1. apply sm_get_elem, Hlt1 in H2. lia. }
    pose proof (Heq k2) as H. simpl in H. rewrite N.eqb_refl in H. injection H as ->. f_equal.
    apply IH; [done|done|]. intros k0. pose proof (Heq k0) as Hk. simpl in Hk.
    destruct (N.eqb_spec k0 k2) as [E0|]; [|done]. clear Hk. subst k0.
    transitivity (@None A); [|symmetry]; apply sm_get_None; intros v Hv.
    + apply Hlt1 in Hv. lia.
    + apply Hlt2 in Hv. lia.
Qed.
End smap.
