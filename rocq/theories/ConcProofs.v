(** Proofs about the concurrent model: one invariant for any number of calls and any interleaving. *)
From Verif Require Import Base SMap DataModel FilterModel BincodeModel ByCommitModel ByCommitSpec ByCommitProofs
  StoreModel StoreSpec StoreProofs StoreSlot StoreViews ConcModel.

(** The store as it will be once the insertions in progress are done. *)
Definition virt_index (st : store) (pd : gmap pubkey pend) : gmap pubkey nat := st_index st ∪ (pd_i <$> pd).
Definition reindex (ix : gmap pubkey nat) (st : store) : store := Store ix (st_owners st) (st_slots st) (st_accounts st).
Definition virt (st : store) (pd : gmap pubkey pend) : store := reindex (virt_index st pd) st.

Record vok (st : store) (pd : gmap pubkey pend) : Prop := Vok {
  vo_ok : st_ok (virt st pd);
  vo_disj : forall pk p, pd !! pk = Some p -> st_index st !! pk = None;
  vo_key : forall pk p, pd !! pk = Some p -> d_pubkey (pd_acct p) = pk;
  vo_single : forall pk p b, pd !! pk = Some p -> st_accounts st !! pd_i p = Some b ->
    bc_all (fun a => a = pd_acct p) b;
}.
Definition tok (n : nat) (t : thr) : Prop :=
  match t with
  | TStat _ _ i | TGetAt i _ => (i < n)%nat
  | TProm _ l _ => Forall (fun '(i, _) => (i < n)%nat) l
  | _ => True
  end.

Lemma virt_lookup st pd pk : virt_index st pd !! pk =
  match st_index st !! pk with Some i => Some i | None => pd_i <$> pd !! pk end.
Proof.
  unfold virt_index. rewrite lookup_union, lookup_fmap. by destruct (st_index st !! pk), (pd !! pk).
Qed.
Lemma virt_index_of st pd pk i : st_index st !! pk = Some i -> st_index (virt st pd) !! pk = Some i.
Proof. intros H. simpl. by rewrite virt_lookup, H. Qed.
Lemma virt_pend_of st pd pk p : vok st pd -> pd !! pk = Some p -> st_index (virt st pd) !! pk = Some (pd_i p).
Proof. intros Hv H. simpl. by rewrite virt_lookup, (vo_disj _ _ Hv _ _ H), H. Qed.
Lemma st_ok_re ix ow sl ac ow2 sl2 : st_ok (Store ix ow sl ac) ->
  (forall p s i, ow2 !! p = Some s -> i ∈ s -> (i < length ac)%nat) ->
  (forall s ss i, sl2 !! s = Some ss -> i ∈ ss_accounts ss -> (i < length ac)%nat) ->
  st_ok (Store ix ow2 sl2 ac).
Proof. intros [H1 H2 H3 H4 H5 H6 H7] Ho Hs. constructor; simpl in *; done. Qed.

(** ** Promotion does not depend on the index *)
Lemma promote_one_ix F st ix out i s c st' out' : promote_one F st out i s c = Done (st', out') ->
  exists o : option pubkey, let del := fun ix : gmap pubkey nat => match o with Some pk => delete pk ix | None => ix end in
    st_index st' = del (st_index st) /\
    promote_one F (reindex ix st) out i s c = Done (reindex (del ix) st', out') /\
    (forall b, st_accounts st !! i = Some b -> forall pk, o = Some pk ->
       exists a prev b', bc_promote b s c = (b', Some (a, Some prev)) /\ d_owner prev <> d_owner a /\ d_pubkey a = pk).
Proof.
  unfold promote_one, reindex. simpl. destruct (st_accounts st !! i) as [b|]; [|done]. simpl.
  destruct (bc_promote b s c) as [b' [[a [prev|]]|]] eqn:Hp.
  2,3: intros [= <- <-]; exists None; done.
  destruct (negb (bool_decide (d_owner prev = d_owner a)) || (d_lamports a =? 0)) eqn:Hd.
  2:{ intros [= <- <-]. by exists None. }
  destruct (update_owner_delete F (st_owners st) prev a i c) as [[ow [|]]|] eqn:Hu; simpl; [| |done];
    intros [= <- <-].
  - exists (Some (d_pubkey a)). simpl. split_and!; [done..|]. intros b0 [= <-] pk [= <-].
    exists a, prev, b'. split_and!; try done. intros Heq. revert Hu. unfold update_owner_delete.
    destruct (bool_decide (d_pubkey prev = d_pubkey a)); [|done]. by rewrite bool_decide_true.
  - by exists None.
Qed.

Lemma promote_vok F st pd out i s c : vok st pd -> (i < length (st_accounts st))%nat ->
  exists st' out', promote_one F st out i s c = Done (st', out') /\ vok st' pd /\
    length (st_accounts st') = length (st_accounts st) /\ st_slots st' = st_slots st /\
    (forall pk, tracked st' pk -> st_index st' !! pk = st_index st !! pk) /\
    (forall pk, tracked st' pk -> tracked st pk) /\
    (forall pk j b, st_index st' !! pk = Some j -> st_accounts st !! j = Some b ->
       exists b', st_accounts st' !! j = Some b' /\ (b' = b \/ (j = i /\ b' = (bc_promote b s c).1))).
Proof.
  intros Hv Hi. destruct (lookup_lt_is_Some_2 (st_accounts st) i Hi) as [b Hb].
  destruct (promote_one_spec F (virt st pd) out i s c b (vo_ok _ _ Hv) Hb)
    as (st1 & b1 & del & rep & Hp & Hpa & Hok1 & Hsl & Hac & Hix & _).
  destruct (promote_one_ix F (virt st pd) (st_index st) out i s c _ _ Hp) as (o & Hixv & Hp' & Hdel).
  replace (reindex (st_index st) (virt st pd)) with st in Hp' by (by destruct st).
  set (ix' := match o with Some pk => delete pk (st_index st) | None => st_index st end) in *.
  assert (forall pk, o = Some pk -> pd !! pk = None) as Hop.
  { intros pk ->. destruct (pd !! pk) as [p|] eqn:Hpd; [|done]. exfalso.
    destruct (Hdel b Hb pk eq_refl) as (a & prev & b' & Hbp & Hne & Hpk).
    pose proof (promote_report_in b s c a (Some prev)) as Hrep. rewrite Hbp in Hrep.
    destruct (Hrep eq_refl) as (Hga & Hgp & _).
    assert (bc_ok b) as Hbc by (by eapply so_bc; [exact (vo_ok _ _ Hv)|]).
    assert (st_index (virt st pd) !! pk = Some i) as Hvi.
    { assert (exists q, st_index (virt st pd) !! q = Some i) as [q Hq].
      { destruct (decide (map_Exists (fun _ j => j = i) (st_index (virt st pd)))) as [(q & ? & ? & ->)|Hno]; [eauto|].
        exfalso. assert (b = bc_empty) as Hbe.
        { eapply so_orphan; [exact (vo_ok _ _ Hv)|exact Hb|]. intros q Hq. apply Hno. exists q, i. done. }
        rewrite Hbe in Hga. done. }
      destruct (so_pk _ (vo_ok _ _ Hv) _ _ _ Hq Hb) as [Hall _]. rewrite <- Hpk.
      by rewrite (proj1 Hall s a Hga). }
    rewrite (virt_pend_of _ _ _ _ Hv Hpd) in Hvi. injection Hvi as <-.
    pose proof (vo_single _ _ Hv _ _ _ Hpd Hb) as Hs.
    pose proof (proj1 Hs s a Hga) as Ha. pose proof (bc_all_get _ b c prev Hbc Hs Hgp) as Hprev. simpl in *. congruence. }
  exists (reindex ix' st1), (out ++ option_list rep). split; [done|].
  assert (virt (reindex ix' st1) pd = st1) as Hvirt.
  { destruct st1 as [ix1 ow1 sl1 ac1]. unfold virt, reindex. simpl. f_equal. simpl in Hixv. rewrite Hixv.
    apply map_eq. intros pk. rewrite virt_lookup. simpl. unfold ix'. destruct o as [q|].
    - destruct (decide (pk = q)) as [->|Hne].
      + rewrite !lookup_delete. by rewrite (Hop q eq_refl).
      + rewrite !lookup_delete_ne by done. by rewrite virt_lookup.
    - by rewrite virt_lookup. }
  assert (forall pk j, ix' !! pk = Some j -> st_index st !! pk = Some j) as Hsub.
  { intros pk j. unfold ix'. destruct o as [q|]; [|done]. intros H. apply lookup_delete_Some in H. tauto. }
  assert (forall j b0, st_accounts st !! j = Some b0 -> st_accounts st1 !! j = Some (if decide (j = i) then b1 else b0)) as Hlook.
  { intros j b0 Hj. rewrite Hac. destruct (decide (j = i)) as [->|Hne].
    - apply list_lookup_insert. done.
    - rewrite list_lookup_insert_ne by done. done. }
  split_and!.
  - constructor; simpl.
    + by rewrite Hvirt.
    + intros pk p Hpd. pose proof (vo_disj _ _ Hv _ _ Hpd) as Hn. destruct (ix' !! pk) as [j|] eqn:Hj; [|done].
      apply Hsub in Hj. congruence.
    + exact (vo_key _ _ Hv).
    + intros pk p b0 Hpd Hb0. pose proof (virt_pend_of _ _ _ _ Hv Hpd) as Hpi.
      pose proof (so_bound _ (vo_ok _ _ Hv) _ _ Hpi) as Hlt. simpl in Hlt.
      destruct (lookup_lt_is_Some_2 _ _ Hlt) as [bb Hbb]. pose proof (vo_single _ _ Hv _ _ _ Hpd Hbb) as Hs.
      rewrite (Hlook _ _ Hbb) in Hb0. injection Hb0 as <-. destruct (decide (pd_i p = i)) as [He|]; [|done].
      rewrite He in Hbb. rewrite Hb in Hbb. injection Hbb as ->.
      assert (bc_ok bb) as Hbc by (by eapply so_bc; [exact (vo_ok _ _ Hv)|]).
      revert Hpa. unfold prom_after. destruct (bc_promote bb s c) as [b' r] eqn:Hbp.
      assert (b' = (bc_promote bb s c).1) as -> by (by rewrite Hbp).
      destruct r as [[a [prev|]]|]; [destruct (drops F c prev a)|..]; intros [= <- _ _];
        [apply bc_all_empty|by apply bc_all_promote..].
  - simpl. rewrite Hac. by rewrite insert_length.
  - done.
  - intros pk [j Hj]. rewrite Hj. symmetry. by apply Hsub.
  - intros pk [j Hj]. exists j. by apply Hsub.
  - intros pk j b0 Hj Hb0. simpl in *. rewrite (Hlook _ _ Hb0). eexists. split; [done|].
    destruct (decide (j = i)) as [->|]; [|by left]. right. split; [done|].
    rewrite Hb in Hb0. injection Hb0 as <-.
    assert (del = false) as ->.
    { destruct del; [|done]. exfalso. pose proof (Hix pk) as H1. rewrite Hixv in H1.
      assert (virt_index st pd !! pk = Some i) as Hvi by (apply Hsub in Hj; by rewrite virt_lookup, Hj).
      simpl in H1. rewrite Hvi, bool_decide_true in H1 by done.
      revert H1 Hj. unfold ix'. destruct o as [q|].
      - intros H1 H2. apply lookup_delete_Some in H2 as [Hne _]. rewrite lookup_delete_ne in H1 by done. congruence.
      - simpl. congruence. }
    revert Hpa. unfold prom_after. destruct (bc_promote b s c) as [b' [[a [prev|]]|]]; [destruct (drops F c prev a)|..];
      by intros [= <-].
Qed.

(** ** The Occupied branch *)
Lemma occupied_update F st a c i : st_index st !! d_pubkey a = Some i ->
  update_account F (Store (st_index st) (st_owners st) ∅ (st_accounts st)) a c =
  ('(st', r) ← occupied F st a c i; Done (Store (st_index st') (st_owners st')
      (add_to_status ∅ (d_slot a) i c).1 (st_accounts st'), r)).
Proof.
  intros Hi. unfold update_account, maybe_update_status, contains_key, occupied. simpl. rewrite Hi.
  rewrite bool_decide_true by eauto. rewrite andb_false_r.
  destruct (add_to_status ∅ (d_slot a) i c) as [sl c'] eqn:Hadd.
  assert (c' = c) as -> by (apply add_to_status_spec in Hadd as (-> & _); by destruct c).
  destruct (st_accounts st !! i) as [b|]; [|done]. simpl.
  destruct (bc_update b a c) as [b' [|]]; [|done]. destruct (bc_get b c) as [p|]; [|done].
  destruct (update_owner_delete F (st_owners st) p a i c) as [[ow [|]]|]; done.
Qed.
Lemma occupied_ix F st ix a c i st' r : occupied F st a c i = Done (st', r) ->
  exists del : bool, let f := fun ix : gmap pubkey nat => if del then delete (d_pubkey a) ix else ix in
    st_index st' = f (st_index st) /\ st_slots st' = st_slots st /\
    length (st_accounts st') = length (st_accounts st) /\
    occupied F (reindex ix st) a c i = Done (reindex (f ix) st', r) /\
    (forall j, j <> i -> st_accounts st' !! j = st_accounts st !! j) /\
    (forall b, del = false -> st_accounts st !! i = Some b -> st_accounts st' !! i = Some (bc_update b a c).1).
Proof.
  unfold occupied, reindex. simpl. destruct (st_accounts st !! i) as [b|] eqn:Hb; [|done]. simpl.
  assert (i < length (st_accounts st))%nat as Hlt by (by eapply lookup_lt_Some).
  assert (forall x j, j <> i -> <[i:=x]> (st_accounts st) !! j = st_accounts st !! j) as Hne.
  { intros x j Hj. by apply list_lookup_insert_ne. }
  destruct (bc_update b a c) as [b' [|]] eqn:Hu; [destruct (bc_get b c) as [p|]|].
  - destruct (update_owner_delete F (st_owners st) p a i c) as [[ow [|]]|]; simpl; [| |done]; intros [= <- <-].
    + exists true. simpl. rewrite insert_length. split_and!; try done. auto.
    + exists false. simpl. rewrite insert_length. split_and!; try done; auto.
      intros b0 _ [= <-]. rewrite list_lookup_insert by done. by rewrite Hu.
  - intros [= <- <-]. exists false. simpl. rewrite insert_length. split_and!; try done; auto.
    intros b0 _ [= <-]. rewrite list_lookup_insert by done. by rewrite Hu.
  - intros [= <- <-]. exists false. simpl. rewrite insert_length. split_and!; try done; auto.
    intros b0 _ [= <-]. rewrite list_lookup_insert by done. by rewrite Hu.
Qed.

Lemma occupied_vok F st pd a c i : vok st pd -> pd !! d_pubkey a = None -> st_index st !! d_pubkey a = Some i ->
  exists st' r, occupied F st a c i = Done (st', r) /\ vok st' pd /\
    length (st_accounts st') = length (st_accounts st) /\ st_slots st' = st_slots st /\
    (forall pk, tracked st' pk -> st_index st' !! pk = st_index st !! pk) /\
    (forall pk, tracked st' pk -> tracked st pk) /\
    (forall pk j b, st_index st' !! pk = Some j -> st_accounts st !! j = Some b ->
       exists b', st_accounts st' !! j = Some b' /\ ((j <> i /\ b' = b) \/ (j = i /\ b' = (bc_update b a c).1))).
Proof.
  intros Hv Hpd Hi. set (v := virt st pd).
  pose proof (vo_ok _ _ Hv) as Hok. fold v in Hok.
  pose proof (virt_index_of _ pd _ _ Hi) as Hvi. fold v in Hvi.
  assert (st_ok (Store (st_index v) (st_owners v) ∅ (st_accounts v))) as Hok0.
  { destruct v as [ix ow sl ac]. apply (st_ok_re ix ow sl ac); [done|exact (so_owners _ Hok)|].
    intros s ss j Hs. simpl in Hs. by rewrite lookup_empty in Hs. }
  destruct (update_account_cases F _ a c Hok0) as (st1 & r & Hu & Hcase).
  pose proof (upd_case_ok _ _ _ _ _ _ Hok0 Hcase) as Hok1.
  rewrite (occupied_update F v a c i Hvi) in Hu.
  destruct (occupied F v a c i) as [[st2 r2]|] eqn:Ho; [|done]. simpl in Hu. injection Hu as <- <-.
  destruct (occupied_ix F v (st_index st) a c i st2 r2 Ho) as (del & Hix & Hsl & Hlen & Ho' & Hac & Hac').
  replace (reindex (st_index st) v) with st in Ho' by (by destruct st).
  eexists _, r2. split; [exact Ho'|].
  assert (forall pk j, (if del then delete (d_pubkey a) (st_index st) else st_index st) !! pk = Some j ->
            st_index st !! pk = Some j) as Hsub.
  { intros pk j. destruct del; [|done]. intros H. apply lookup_delete_Some in H. tauto. }
  assert (virt (reindex (if del then delete (d_pubkey a) (st_index st) else st_index st) st2) pd = st2) as Hvirt.
  { destruct st2 as [ix1 ow1 sl1 ac1]. unfold virt, reindex. simpl. f_equal. simpl in Hix. rewrite Hix.
    apply map_eq. intros pk. rewrite virt_lookup. simpl. destruct del.
    - destruct (decide (pk = d_pubkey a)) as [->|Hne].
      + rewrite !lookup_delete. by rewrite Hpd.
      + rewrite !lookup_delete_ne by done. by rewrite virt_lookup.
    - by rewrite virt_lookup. }
  split_and!.
  - constructor; simpl.
    + rewrite Hvirt. destruct st2 as [ix1 ow1 sl1 ac1]. simpl in *. eapply st_ok_re; [exact Hok1|exact (so_owners _ Hok1)|].
      intros s ss j Hs Hj. rewrite Hlen. rewrite Hsl in Hs. by apply (so_slots _ Hok s ss).
    + intros pk p Hp. pose proof (vo_disj _ _ Hv _ _ Hp) as Hn.
      destruct ((if del then delete (d_pubkey a) (st_index st) else st_index st) !! pk) as [j|] eqn:Hj; [|done].
      apply Hsub in Hj. congruence.
    + exact (vo_key _ _ Hv).
    + intros pk p b Hp Hb. rewrite Hac in Hb; [by apply (vo_single _ _ Hv pk p b)|]. intros He.
      pose proof (virt_pend_of _ _ _ _ Hv Hp) as Hpi. rewrite He in Hpi.
      pose proof (so_inj _ Hok _ _ _ Hpi Hvi) as ->. congruence.
  - done.
  - done.
  - intros pk [j Hj]. rewrite Hj. symmetry. by apply Hsub.
  - intros pk [j Hj]. exists j. by apply Hsub.
  - intros pk j b Hj Hb. simpl in *. destruct (decide (j = i)) as [->|Hne].
    + destruct del; [|exists (bc_update b a c).1; auto]. exfalso.
      apply lookup_delete_Some in Hj as [Hne Hj]. apply Hne. by eapply (so_inj _ Hok); [|apply (virt_index_of _ pd)].
    + rewrite Hac by done. eauto.
Qed.

(** ** The Vacant branch *)
Lemma push_vok st pd a c : vok st pd -> pd !! d_pubkey a = None -> st_index st !! d_pubkey a = None ->
  vok (Store (st_index st) (st_owners st) (st_slots st) (st_accounts st ++ [bc_new a c]))
      (<[d_pubkey a := Pend (length (st_accounts st)) a c 0]> pd).
Proof.
  intros Hv Hpd Hi. pose proof (vo_ok _ _ Hv) as Hok.
  assert (virt_index st pd !! d_pubkey a = None) as Hvn by (by rewrite virt_lookup, Hi, Hpd).
  constructor; simpl.
  - destruct (add_to_status (st_slots st) (d_slot a) (length (st_accounts st)) c) as [sl' c0] eqn:Hadd.
    assert (upd_case (Filt (fun _ => true) (fun _ => true)) (virt st pd) a c
      (Store (<[d_pubkey a := length (st_accounts st)]> (virt_index st pd))
             (add_owner (st_owners st) (length (st_accounts st)) (d_owner a)) sl'
             (st_accounts st ++ [bc_new a c])) true) as Hc by exact (UNew (Filt (fun _ => true) (fun _ => true)) (virt st pd) a c sl' c0 Hvn eq_refl Hadd).
    apply upd_case_ok in Hc; [|done]. unfold virt, reindex. simpl.
    replace (virt_index _ (<[d_pubkey a:=Pend (length (st_accounts st)) a c 0]> pd))
      with (<[d_pubkey a := length (st_accounts st)]> (virt_index st pd)).
    2:{ apply map_eq. intros pk. rewrite virt_lookup. simpl. destruct (decide (pk = d_pubkey a)) as [->|Hne].
        - by rewrite lookup_insert, Hi, lookup_insert.
        - rewrite !lookup_insert_ne by done. by rewrite virt_lookup. }
    eapply st_ok_re; [exact Hc|..]; rewrite app_length; simpl.
    + intros p s j Hs Hj. pose proof (so_owners _ Hok _ _ _ Hs Hj) as H. simpl in H. lia.
    + intros s ss j Hs Hj. pose proof (so_slots _ Hok _ _ _ Hs Hj) as H. simpl in H. lia.
  - intros pk p Hp. destruct (decide (pk = d_pubkey a)) as [->|Hne]; [done|].
    rewrite lookup_insert_ne in Hp by done. by apply (vo_disj _ _ Hv _ _ Hp).
  - intros pk p Hp. destruct (decide (pk = d_pubkey a)) as [->|Hne].
    + rewrite lookup_insert in Hp. by injection Hp as <-.
    + rewrite lookup_insert_ne in Hp by done. by apply (vo_key _ _ Hv _ _ Hp).
  - intros pk p b Hp Hb. destruct (decide (pk = d_pubkey a)) as [->|Hne].
    + rewrite lookup_insert in Hp. injection Hp as <-. simpl in *. rewrite lookup_app_r, Nat.sub_diag in Hb by lia.
      injection Hb as <-. rewrite bc_new_update. apply bc_all_update; [apply bc_all_empty|done].
    + rewrite lookup_insert_ne in Hp by done. apply (vo_single _ _ Hv pk p b); [done|].
      pose proof (so_bound _ Hok _ _ (virt_pend_of _ _ _ _ Hv Hp)) as Hlt. simpl in Hlt.
      by rewrite lookup_app_l in Hb.
Qed.

Lemma stage_vok st pd pk i a c n n' ow sl : vok st pd -> pd !! pk = Some (Pend i a c n) ->
  (forall p s j, ow !! p = Some s -> j ∈ s -> (j < length (st_accounts st))%nat) ->
  (forall s ss j, sl !! s = Some ss -> j ∈ ss_accounts ss -> (j < length (st_accounts st))%nat) ->
  vok (Store (st_index st) ow sl (st_accounts st)) (<[pk := Pend i a c n']> pd).
Proof.
  intros Hv Hp Ho Hs.
  assert (forall q, (pd_i <$> <[pk := Pend i a c n']> pd !! q) = (pd_i <$> pd !! q)) as He.
  { intros q. destruct (decide (q = pk)) as [->|Hne]; [by rewrite lookup_insert, Hp|by rewrite lookup_insert_ne]. }
  constructor; simpl.
  - unfold virt, reindex. simpl. eapply st_ok_re; [|done|done].
    replace (virt_index _ _) with (virt_index st pd); [exact (vo_ok _ _ Hv)|].
    apply map_eq. intros q. rewrite !virt_lookup. simpl. by rewrite He.
  - intros q p Hq. destruct (decide (q = pk)) as [->|Hne].
    + by apply (vo_disj _ _ Hv _ _ Hp).
    + rewrite lookup_insert_ne in Hq by done. by apply (vo_disj _ _ Hv _ _ Hq).
  - intros q p Hq. destruct (decide (q = pk)) as [->|Hne].
    + rewrite lookup_insert in Hq. injection Hq as <-. by apply (vo_key _ _ Hv _ _ Hp).
    + rewrite lookup_insert_ne in Hq by done. by apply (vo_key _ _ Hv _ _ Hq).
  - intros q p b Hq Hb. destruct (decide (q = pk)) as [->|Hne].
    + rewrite lookup_insert in Hq. injection Hq as <-. by apply (vo_single _ _ Hv _ _ _ Hp Hb).
    + rewrite lookup_insert_ne in Hq by done. by apply (vo_single _ _ Hv _ _ _ Hq Hb).
Qed.

Lemma publish_vok st pd pk i a c n : vok st pd -> pd !! pk = Some (Pend i a c n) ->
  vok (Store (<[pk := i]> (st_index st)) (st_owners st) (st_slots st) (st_accounts st)) (delete pk pd).
Proof.
  intros Hv Hp. constructor; simpl.
  - unfold virt, reindex. simpl.
    replace (virt_index _ _) with (virt_index st pd); [exact (vo_ok _ _ Hv)|].
    apply map_eq. intros q. rewrite !virt_lookup. simpl. destruct (decide (q = pk)) as [->|Hne].
    + by rewrite lookup_insert, (vo_disj _ _ Hv _ _ Hp), Hp.
    + by rewrite lookup_insert_ne, lookup_delete_ne.
  - intros q p [Hne Hq]%lookup_delete_Some. rewrite lookup_insert_ne by done. by apply (vo_disj _ _ Hv _ _ Hq).
  - intros q p [Hne Hq]%lookup_delete_Some. by apply (vo_key _ _ Hv _ _ Hq).
  - intros q p b [Hne Hq]%lookup_delete_Some Hb. by apply (vo_single _ _ Hv _ _ _ Hq Hb).
Qed.

Lemma slots_vok st pd sl : vok st pd ->
  (forall s ss j, sl !! s = Some ss -> j ∈ ss_accounts ss -> (j < length (st_accounts st))%nat) ->
  vok (Store (st_index st) (st_owners st) sl (st_accounts st)) pd.
Proof.
  intros Hv Hs. destruct Hv as [H1 H2 H3 H4]. constructor; simpl; try done.
  eapply st_ok_re; [exact H1|exact (so_owners _ H1)|done].
Qed.

(** ** One piece *)
Definition vmono (st st' : store) : Prop := forall pk k x, version_at st pk k = Some x -> tracked st' pk ->
  exists x', version_at st' pk k = Some x' /\ version_le x x'.
Lemma vmono_refl st : vmono st st.
Proof. intros pk k x Hx _. eauto using version_le_refl. Qed.
Lemma vmono_same ow sl st : vmono st (Store (st_index st) ow sl (st_accounts st)).
Proof. intros pk k x Hx _. exists x. split; [exact Hx|apply version_le_refl]. Qed.
Lemma vmono_entries st pd st' : vok st pd ->
  (forall pk, tracked st pk -> tracked st' pk -> st_index st' !! pk = st_index st !! pk) ->
  (forall pk j b, st_index st !! pk = Some j -> st_index st' !! pk = Some j -> st_accounts st !! j = Some b ->
     exists b', st_accounts st' !! j = Some b' /\ (b' = b \/ exists o, b' = abc_step b o)) -> vmono st st'.
Proof.
  intros Hv Hix Hac pk k x (i & b & Hi & Hb & Hg)%version_at_inv Ht'.
  assert (st_index st' !! pk = Some i) as Hi' by (rewrite Hix; [done|by exists i|done]).
  destruct (Hac pk i b Hi Hi' Hb) as (b' & Hb' & Hcase). rewrite (version_at_entry _ _ _ _ _ Hi' Hb').
  destruct Hcase as [->|[o ->]]; [eauto using version_le_refl|].
  apply bc_get_mono; [|done]. by eapply so_bc; [exact (vo_ok _ _ Hv)|].
Qed.

Definition ins (t : thr) : option pubkey := match t with TIns pk => Some pk | _ => None end.

Lemma piece_ok F st pd t : vok st pd -> tok (length (st_accounts st)) t ->
  (forall pk, ins t = Some pk -> is_Some (pd !! pk)) ->
  piece F st pd t = None \/
  exists st' pd' t', piece F st pd t = Some (Done (st', pd', t')) /\ vok st' pd' /\
    (length (st_accounts st) <= length (st_accounts st'))%nat /\ tok (length (st_accounts st')) t' /\
    vmono st st' /\
    (forall pk, ins t <> Some pk -> is_Some (pd !! pk) -> is_Some (pd' !! pk)) /\
    (forall pk, ins t' = Some pk -> is_Some (pd' !! pk) /\ (ins t = Some pk \/ pd !! pk = None)).
Proof.
  intros Hv Ht Hins. pose proof (vo_ok _ _ Hv) as Hok.
  destruct t as [a c|a c|a c i|a c|pk|si c|c l out|pk c|i c|r]; simpl.
  - destruct (negb (is_deleted a) && negb (fl_sat F a)); [destruct (pd !! d_pubkey a); [by left|destruct (contains_key _ _)]|];
      right; do 3 eexists; (split; [done|]); split_and!; try done; apply vmono_refl.
  - destruct (pd !! d_pubkey a) eqn:Hpd; [by left|]. right. do 3 eexists. split; [done|].
    split_and!; try done; [|apply vmono_refl|by destruct (st_index st !! d_pubkey a)].
    destruct (st_index st !! d_pubkey a) as [i|] eqn:Hi; [|done]. simpl.
    exact (so_bound _ Hok _ _ (virt_index_of _ pd _ _ Hi)).
  - destruct (add_to_status (st_slots st) (d_slot a) i c) as [sl c'] eqn:Hadd. right. do 3 eexists. split; [done|].
    split_and!; try done; simpl; [|apply vmono_same].
    apply slots_vok; [done|]. eapply slots_bound; [exact (so_slots _ Hok)|reflexivity|exact Ht|exact Hadd].
  - destruct (pd !! d_pubkey a) eqn:Hpd; [by left|]. right. destruct (st_index st !! d_pubkey a) as [i|] eqn:Hi.
    + destruct (occupied_vok F st pd a c i Hv Hpd Hi) as (st' & r & -> & Hv' & Hlen & Hsl & Hix & Htr & Hac).
      simpl. do 3 eexists. split; [done|]. split_and!; try done; [lia|].
      apply (vmono_entries st pd); [done|by auto|]. intros pk j b Hj Hj' Hb.
      destruct (Hac pk j b Hj' Hb) as (b' & Hb' & Hcase). exists b'. split; [done|].
      destruct Hcase as [[_ ->]|[_ ->]]; [by left|]. right. by exists (AUpdate a c).
    + destruct (fl_sat F a); do 3 eexists; (split; [done|]); split_and!; try done; simpl; try apply vmono_refl.
      * by apply push_vok.
      * rewrite app_length. lia.
      * apply (vmono_entries st pd); [done|done|]. simpl. intros pk j b Hj _ Hb.
        exists b. split; [|by left]. by apply lookup_app_l_Some.
      * intros pk _ [p Hp]. destruct (decide (pk = d_pubkey a)) as [->|Hne]; [by rewrite lookup_insert|].
        rewrite lookup_insert_ne by done. by exists p.
      * intros pk [= <-]. rewrite lookup_insert. split; [by eexists|by right].
  - destruct (Hins pk eq_refl) as [[i a c n] Hp]. rewrite Hp. right.
    pose proof (so_bound _ Hok _ _ (virt_pend_of _ _ _ _ Hv Hp)) as Hlt. simpl in Hlt.
    assert (forall n', (forall q, Some pk <> Some q -> is_Some (pd !! q) -> is_Some (<[pk := Pend i a c n']> pd !! q))) as Hk.
    { intros n' q Hne Hq. rewrite lookup_insert_ne by congruence. done. }
    destruct n as [|[|n]]; do 3 eexists; (split; [done|]); split_and!; try done; simpl; try apply vmono_same.
    + eapply stage_vok; [done|exact Hp| |exact (so_slots _ Hok)].
      eapply owners_bound; [exact (so_owners _ Hok)|reflexivity|exact Hlt|]. intros p j Hj. rewrite own_add.
      destruct (decide (d_owner a = p)) as [->|]; set_solver.
    + apply Hk.
    + intros q [= <-]. rewrite lookup_insert. eauto.
    + eapply stage_vok; [done|exact Hp|exact (so_owners _ Hok)|].
      destruct (add_to_status (st_slots st) (d_slot a) i c) as [sl c'] eqn:Hadd.
      eapply slots_bound; [exact (so_slots _ Hok)|reflexivity|exact Hlt|exact Hadd].
    + apply Hk.
    + intros q [= <-]. rewrite lookup_insert. eauto.
    + by eapply publish_vok.
    + apply (vmono_entries st pd); [done| |].
      * simpl. intros q [x Hq] _. rewrite lookup_insert_ne; [done|]. intros <-.
        pose proof (vo_disj _ _ Hv _ _ Hp). congruence.
      * simpl. intros q j b Hq _ Hb. exists b. split; [done|by left].
    + intros q Hne Hq. rewrite lookup_delete_ne by congruence. done.
  - destruct (slot_phase (st_slots st) si c) as [[sl wa]|] eqn:Hph.
    + right. destruct (phase_ok (virt st pd) si c sl wa Hok Hph) as [Hok' Hall].
      do 3 eexists. split; [done|]. split_and!; try done; simpl; [|apply vmono_same].
      apply slots_vok; [done|exact (so_slots _ Hok')].
    + exfalso. destruct (slot_phase_total (st_slots st) si c) as [? ?]. congruence.
  - destruct l as [|[i s] l]; right.
    + do 3 eexists. split; [done|]. split_and!; try done. apply vmono_refl.
    + simpl in Ht. inversion Ht as [|? ? Hi Hl]; subst.
      destruct (promote_vok F st pd out i s c Hv Hi) as (st' & out' & -> & Hv' & Hlen & _ & Hix & _ & Hac). simpl.
      do 3 eexists. split; [done|]. split_and!; try done; [lia|by rewrite Hlen|].
      apply (vmono_entries st pd); [done|by auto|]. intros pk j b Hj Hj' Hb.
      destruct (Hac pk j b Hj' Hb) as (b' & Hb' & Hcase). exists b'. split; [done|].
      destruct Hcase as [->|[_ ->]]; [by left|]. right. by exists (APromote s c).
  - destruct (pd !! pk); [by left|]. right. do 3 eexists. split; [done|]. split_and!; try done; [|apply vmono_refl|].
    + destruct (st_index st !! pk) as [i|] eqn:Hi; [|done]. simpl. exact (so_bound _ Hok _ _ (virt_index_of _ pd _ _ Hi)).
    + by destruct (st_index st !! pk).
  - right. destruct (lookup_lt_is_Some_2 (st_accounts st) i Ht) as [b ->]. simpl.
    do 3 eexists. split; [done|]. split_and!; try done. apply vmono_refl.
  - by left.
Qed.

(** ** All interleavings *)
Record cok (cs : cstate) : Prop := Cok {
  co_vok : vok (cs_st cs) (cs_pend cs);
  co_thr : forall j t, cs_thr cs !! j = Some t -> tok (length (st_accounts (cs_st cs))) t;
  co_ins : forall j t pk, cs_thr cs !! j = Some t -> ins t = Some pk -> is_Some (cs_pend cs !! pk);
  co_uniq : forall j j' t t' pk, cs_thr cs !! j = Some t -> cs_thr cs !! j' = Some t' ->
    ins t = Some pk -> ins t' = Some pk -> j = j';
}.
Lemma tok_mono n n' t : (n <= n')%nat -> tok n t -> tok n' t.
Proof.
  intros Hn. destruct t; simpl; try lia; try done. intros H. eapply Forall_impl; [exact H|].
  intros [i s] Hi; lia.
Qed.
Lemma cok_step cs F j r : cok cs -> cstep cs F j r ->
  exists cs', r = Done cs' /\ cok cs' /\ vmono (cs_st cs) (cs_st cs').
Proof.
  intros [Hv Ht Hi Hu] Hstep. destruct Hstep as [t st pd t' Hj Hp|t Hj Hp|c l l' out Hj Hl|t Hj Hlen Hcall].
  - destruct (piece_ok F _ _ t Hv (Ht _ _ Hj) (fun pk => Hi _ _ pk Hj)) as [Hn|(st1 & pd1 & t1 & Hd & Hv1 & Hle & Ht1 & Hm & Hk & Hk')];
      [congruence|].
    rewrite Hp in Hd. injection Hd as <- <- <-. eexists. split; [done|]. split; [|done].
    assert (forall j0 t0 pk, j0 <> j -> cs_thr cs !! j0 = Some t0 -> ins t0 = Some pk -> ins t' <> Some pk) as Hother.
    { intros j0 t0 pk Hne Hj0 Hpk Hpk'. destruct (Hk' pk Hpk') as [_ [Hold|Hold]].
      - apply Hne. by eapply (Hu j0 j t0 t pk).
      - destruct (Hi _ _ _ Hj0 Hpk). congruence. }
    constructor; simpl.
    + done.
    + intros j0 t0 H0. destruct (decide (j0 = j)) as [->|Hne].
      * rewrite list_lookup_insert in H0 by (by eapply lookup_lt_Some). by injection H0 as <-.
      * rewrite list_lookup_insert_ne in H0 by done. by eapply tok_mono; [exact Hle|eapply Ht].
    + intros j0 t0 pk H0 Hpk. destruct (decide (j0 = j)) as [->|Hne].
      * rewrite list_lookup_insert in H0 by (by eapply lookup_lt_Some). injection H0 as <-. by apply Hk'.
      * rewrite list_lookup_insert_ne in H0 by done. apply Hk; [|by eapply Hi]. intros Hpk'. apply Hne. by eapply (Hu j0 j t0 t pk).
    + intros j0 j1 t0 t1 pk H0 H1 Hp0 Hp1.
      destruct (decide (j0 = j)) as [->|Hne0], (decide (j1 = j)) as [->|Hne1]; [done| | |].
      * rewrite list_lookup_insert in H0 by (by eapply lookup_lt_Some). injection H0 as <-.
        rewrite list_lookup_insert_ne in H1 by done. exfalso. by eapply (Hother j1 t1 pk).
      * rewrite list_lookup_insert in H1 by (by eapply lookup_lt_Some). injection H1 as <-.
        rewrite list_lookup_insert_ne in H0 by done. exfalso. by eapply (Hother j0 t0 pk).
      * rewrite list_lookup_insert_ne in H0, H1 by done. by eapply (Hu j0 j1 t0 t1 pk).
  - exfalso. destruct (piece_ok F _ _ t Hv (Ht _ _ Hj) (fun pk => Hi _ _ pk Hj)) as [Hn|(? & ? & ? & ? & _)]; congruence.
  - eexists. split; [done|]. split; [|apply vmono_refl]. pose proof (Ht _ _ Hj) as Hall. simpl in Hall.
    assert (forall j0 t0, <[j:=TProm c l' out]> (cs_thr cs) !! j0 = Some t0 ->
       t0 = TProm c l' out \/ cs_thr cs !! j0 = Some t0) as Hlook.
    { intros j0 t0 H0. destruct (decide (j0 = j)) as [->|Hne].
      - rewrite list_lookup_insert in H0 by (by eapply lookup_lt_Some). injection H0 as <-. by left.
      - rewrite list_lookup_insert_ne in H0 by done. by right. }
    constructor; simpl.
    + done.
    + intros j0 t0 [->|H0]%Hlook; [|by eapply Ht]. simpl. by rewrite Hl.
    + intros j0 t0 pk [->|H0]%Hlook Hpk; [done|]. by eapply Hi.
    + intros j0 j1 t0 t1 pk [->|H0]%Hlook [->|H1]%Hlook Hp0 Hp1; [done..|]. by eapply (Hu j0 j1 t0 t1 pk).
  - eexists. split; [done|]. split; [|apply vmono_refl].
    assert (forall j0 t0, (cs_thr cs ++ [t]) !! j0 = Some t0 -> t0 = t \/ cs_thr cs !! j0 = Some t0) as Hlook.
    { intros j0 t0 [H0|[_ H0]]%lookup_app_Some; [by right|]. apply list_lookup_singleton_Some in H0 as [_ <-]. by left. }
    assert (ins t = None) as Hin by (by destruct t).
    constructor; simpl.
    + done.
    + intros j0 t0 [->|H0]%Hlook; [by destruct t|by eapply Ht].
    + intros j0 t0 pk [->|H0]%Hlook Hpk; [congruence|by eapply Hi].
    + intros j0 j1 t0 t1 pk [->|H0]%Hlook [->|H1]%Hlook Hp0 Hp1; [congruence..|]. by eapply (Hu j0 j1 t0 t1 pk).
Qed.
Lemma cok_empty : cok cs_empty.
Proof.
  constructor; simpl; try (intros *; rewrite lookup_nil; done).
  constructor; simpl; try (intros *; rewrite lookup_empty; done).
  change (st_ok (Store (virt_index store_empty ∅) ∅ ∅ [])).
  replace (virt_index store_empty ∅) with (∅ : gmap pubkey nat); [apply st_ok_empty|].
  apply map_eq. intros pk. rewrite virt_lookup. simpl. by rewrite !lookup_empty.
Qed.
Lemma cok_reach cs cs' : creach cs cs' -> cok cs -> cok cs'.
Proof.
  induction 1 as [|cs F j cs1 cs2 Hs _ IH]; [done|]. intros Hc. apply IH.
  destruct (cok_step _ _ _ _ Hc Hs) as (? & [= <-] & ? & _). done.
Qed.
