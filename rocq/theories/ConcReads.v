(** Concurrent reads answer with the state of one moment between call and return. *)
From Verif Require Import Base SMap DataModel FilterModel BincodeModel ByCommitModel ByCommitSpec ByCommitProofs
  StoreModel StoreSpec StoreProofs StoreSlot StoreViews ConcModel ConcProofs.

(** Entries are never given to another pubkey. *)
Lemma piece_virt F st pd t st' pd' t' : vok st pd -> piece F st pd t = Some (Done (st', pd', t')) ->
  (length (st_accounts st) <= length (st_accounts st'))%nat /\
  (forall q k, virt_index st' pd' !! q = Some k -> virt_index st pd !! q = Some k \/ (virt_index st pd !! q = None /\ (length (st_accounts st) <= k)%nat)) /\
  (forall q p, pd' !! q = Some p -> is_Some (pd !! q) \/ virt_index st pd !! q = None).
Proof.
  intros Hv Hp. assert (forall ow sl, virt_index (Store (st_index st) ow sl (st_accounts st)) pd = virt_index st pd) as Hsame by done.
  destruct t as [a c|a c|a c i|a c|pk|si c|c l out|pk c|i c|r]; simpl in Hp.
  - destruct (negb (is_deleted a) && negb (fl_sat F a)); [destruct (pd !! d_pubkey a); [done|destruct (contains_key _ _)]|]; injection Hp as <- <- <-; naive_solver.
  - destruct (pd !! d_pubkey a); [done|]. injection Hp as <- <- <-; naive_solver.
  - destruct (add_to_status (st_slots st) (d_slot a) i c) as [sl c']. injection Hp as <- <- <-. rewrite Hsame. naive_solver.
  - destruct (pd !! d_pubkey a) eqn:Hpd; [done|]. destruct (st_index st !! d_pubkey a) as [i|] eqn:Hi.
    + destruct (occupied F st a c i) as [[st1 b]|] eqn:Ho; [|done]. injection Hp as <- <- <-.
      destruct (occupied_ix F st (st_index st) a c i _ _ Ho) as (del & Hix & _ & Hlen & _). cbv zeta in Hix. split; [lia|]. split; [|eauto].
      intros q k. rewrite !virt_lookup, Hix. destruct del; [|auto]. destruct (decide (q = d_pubkey a)) as [->|Hne].
      * rewrite lookup_delete, Hpd. done.
      * rewrite lookup_delete_ne by done. auto.
    + assert (virt_index st pd !! d_pubkey a = None) as Hvn by (by rewrite virt_lookup, Hi, Hpd).
      destruct (fl_sat F a); injection Hp as <- <- <-; [|naive_solver]. simpl. rewrite app_length. simpl. split; [lia|]. split.
      * intros q k. rewrite !virt_lookup. simpl. destruct (decide (q = d_pubkey a)) as [->|Hne].
        -- rewrite Hi, lookup_insert, Hpd. simpl. intros [= <-]. right. split; [done|lia].
        -- rewrite lookup_insert_ne by done. auto.
      * intros q p. destruct (decide (q = d_pubkey a)) as [->|Hne]; [auto|]. rewrite lookup_insert_ne by done. eauto.
  - destruct (pd !! pk) as [[i a c n]|] eqn:Hpd; [|done].
    assert (forall n' q, (pd_i <$> <[pk := Pend i a c n']> pd !! q) = (pd_i <$> pd !! q)) as He.
    { intros n' q. destruct (decide (q = pk)) as [->|Hne]; [by rewrite lookup_insert, Hpd|by rewrite lookup_insert_ne]. }
    assert (forall n' q p, <[pk := Pend i a c n']> pd !! q = Some p -> is_Some (pd !! q)) as Hk.
    { intros n' q p. destruct (decide (q = pk)) as [->|Hne]; [rewrite Hpd; eauto|rewrite lookup_insert_ne by done; eauto]. }
    destruct n as [|[|n]]; injection Hp as <- <- <-; simpl; (split; [lia|]); split; [|eauto| |eauto| |].
    + intros q k. rewrite !virt_lookup. simpl. rewrite He. auto.
    + intros q k. rewrite !virt_lookup. simpl. rewrite He. auto.
    + intros q k. rewrite !virt_lookup. simpl. destruct (decide (q = pk)) as [->|Hne].
      * rewrite lookup_insert, (vo_disj _ _ Hv _ _ Hpd), Hpd. auto.
      * rewrite lookup_insert_ne, lookup_delete_ne by done. auto.
    + intros q p [_ Hq]%lookup_delete_Some. eauto.
  - destruct (slot_phase (st_slots st) si c) as [[sl wa]|]; [|done]. injection Hp as <- <- <-. rewrite Hsame. naive_solver.
  - destruct l as [|[i s] l]; [injection Hp as <- <- <-; naive_solver|]. destruct (promote_one F st out i s c) as [[st1 out1]|] eqn:Ho; [|done].
    injection Hp as <- <- <-. pose proof Ho as Ho'. unfold promote_one in Ho'. destruct (st_accounts st !! i) as [b|] eqn:Hb; [|done]. clear Ho'.
    destruct (promote_vok F st pd out i s c Hv (lookup_lt_Some _ _ _ Hb)) as (st2 & out2 & Heq & Hv2 & Hlen & _). rewrite Ho in Heq. injection Heq as <- <-.
    destruct (promote_one_ix F st (st_index st) out i s c _ _ Ho) as (o & Hix & _). cbv zeta in Hix. split; [lia|]. split; [|eauto].
    intros q k. rewrite !virt_lookup, Hix. destruct o as [pk|]; [|auto]. destruct (decide (q = pk)) as [->|Hne].
    + rewrite lookup_delete. destruct (st_index st !! pk) as [j|] eqn:Hj; [|auto]. destruct (pd !! pk) as [p|] eqn:Hpd; [|done].
      pose proof (vo_disj _ _ Hv _ _ Hpd). congruence.
    + rewrite lookup_delete_ne by done. auto.
  - destruct (pd !! pk); [done|]. injection Hp as <- <- <-; naive_solver.
  - destruct (st_accounts st !! i); [|done]. injection Hp as <- <- <-; naive_solver.
  - done.
Qed.
Lemma step_virt cs F j cs' : cok cs -> cstep cs F j (Done cs') ->
  (length (st_accounts (cs_st cs)) <= length (st_accounts (cs_st cs')))%nat /\
  (forall q k, virt_index (cs_st cs') (cs_pend cs') !! q = Some k ->
     virt_index (cs_st cs) (cs_pend cs) !! q = Some k \/ (virt_index (cs_st cs) (cs_pend cs) !! q = None /\ (length (st_accounts (cs_st cs)) <= k)%nat)) /\
  (forall q p, cs_pend cs' !! q = Some p -> is_Some (cs_pend cs !! q) \/ virt_index (cs_st cs) (cs_pend cs) !! q = None).
Proof.
  intros Hc Hs. inversion Hs as [t st pd t' Hj Hp| |? ? ? ? Hj Hl|? Hj]; subst; simpl; [|naive_solver..].
  eapply piece_virt; [exact (co_vok _ Hc)|exact Hp].
Qed.
Lemma creach_trans a b c : creach a b -> creach b c -> creach a c.
Proof. induction 1; eauto using creach. Qed.

(** What a read of [pk] at [c] returns in a state. *)
Definition answer (st : store) (pk : pubkey) (c : commitment) (o : option acct) : Prop :=
  match o with
  | Some a => version_at st pk c = Some a /\ alive a
  | None => forall a, version_at st pk c = Some a -> ~ alive a
  end.
Definition gone (i : nat) (cs : cstate) : Prop := forall q, virt_index (cs_st cs) (cs_pend cs) !! q <> Some i.
Definition reading (cs0 : cstate) (j : nat) (pk : pubkey) (c : commitment) (cs : cstate) : Prop :=
  cs_thr cs !! j = Some (TGet pk c) \/
  (exists i, cs_thr cs !! j = Some (TGetAt i c) /\ (i < length (st_accounts (cs_st cs)))%nat /\
     (st_index (cs_st cs) !! pk = Some i \/ (gone i cs /\ exists cs1, creach cs0 cs1 /\ creach cs1 cs /\ st_index (cs_st cs1) !! pk = None))) \/
  (exists o cs1, cs_thr cs !! j = Some (TDone (RGet (ROk o))) /\ creach cs0 cs1 /\ creach cs1 cs /\ answer (cs_st cs1) pk c o).
Lemma creach_one cs F j cs' : cstep cs F j (Done cs') -> creach cs cs'.
Proof. intros H. eapply creach_step; [exact H|constructor]. Qed.
Lemma no_version st pk c : st_index st !! pk = None -> version_at st pk c = None.
Proof. intros H. unfold version_at. by rewrite H. Qed.
Lemma thr_other cs F j j' cs' t : cstep cs F j (Done cs') -> j <> j' -> cs_thr cs !! j' = Some t -> cs_thr cs' !! j' = Some t.
Proof.
  intros Hs Hne Ht. inversion Hs as [? ? ? ? Hj Hp| |? ? ? ? Hj Hl|? Hj Hlen]; subst; simpl; [by rewrite list_lookup_insert_ne..|].
  by apply lookup_app_l_Some.
Qed.
Lemma entry_kept cs F j cs' pk i : cok cs -> cstep cs F j (Done cs') -> st_index (cs_st cs) !! pk = Some i ->
  st_index (cs_st cs') !! pk = Some i \/ (st_index (cs_st cs') !! pk = None /\ gone i cs').
Proof.
  intros Hc Hs Hi. destruct (step_virt _ _ _ _ Hc Hs) as (Hlen & Hvi & Hpd). pose proof (co_vok _ Hc) as Hv.
  pose proof (virt_index_of _ (cs_pend cs) _ _ Hi) as Hvi0. simpl in Hvi0.
  destruct (cok_step _ _ _ _ Hc Hs) as (? & [= <-] & Hc' & _).
  destruct (st_index (cs_st cs') !! pk) as [k|] eqn:Hk.
  - left. pose proof (virt_index_of _ (cs_pend cs') _ _ Hk) as Hk'. simpl in Hk'. destruct (Hvi _ _ Hk') as [H|[H _]]; congruence.
  - right. split; [done|]. intros q Hq. destruct (Hvi _ _ Hq) as [H|[_ H]].
    + assert (q = pk) as ->. { exact (so_inj _ (vo_ok _ _ Hv) _ _ _ H Hvi0). }
      rewrite virt_lookup, Hk in Hq. destruct (cs_pend cs' !! pk) as [p|] eqn:Hp; [|done]. destruct (Hpd _ _ Hp) as [[p' Hp']|Hn]; [|congruence].
      pose proof (vo_disj _ _ Hv _ _ Hp'). congruence.
    + pose proof (so_bound _ (vo_ok _ _ Hv) _ _ Hvi0). simpl in *. lia.
Qed.
Lemma gone_kept cs F j cs' i : cok cs -> cstep cs F j (Done cs') -> (i < length (st_accounts (cs_st cs)))%nat -> gone i cs -> gone i cs'.
Proof.
  intros Hc Hs Hi Hg q Hq. destruct (step_virt _ _ _ _ Hc Hs) as (_ & Hvi & _). destruct (Hvi _ _ Hq) as [H|[_ H]]; [by apply (Hg q)|lia].
Qed.
Lemma gone_empty cs i b : cok cs -> gone i cs -> st_accounts (cs_st cs) !! i = Some b -> b = bc_empty.
Proof. intros Hc Hg Hb. exact (so_orphan _ (vo_ok _ _ (co_vok _ Hc)) i b Hb Hg). Qed.
Lemma reading_step cs0 j pk c cs F j' cs' : cok cs -> creach cs0 cs -> reading cs0 j pk c cs -> cstep cs F j' (Done cs') -> reading cs0 j pk c cs'.
Proof.
  intros Hc Hr Hrd Hs. pose proof (creach_one _ _ _ _ Hs) as Hone. destruct (decide (j' = j)) as [->|Hne].
  - destruct Hrd as [Hj|[(i & Hj & Hi & Hcase)|(o & cs1 & Hj & _)]].
    + inversion Hs as [t st pd t' Hjt Hp| |? ? ? ? Hjt|? Hjt]; subst; [|congruence..]. rewrite Hj in Hjt. injection Hjt as <-. simpl in Hp.
      destruct (cs_pend cs !! pk) eqn:Hpd; [done|]. injection Hp as <- <- <-. pose proof (lookup_lt_Some _ _ _ Hj) as Hlt.
      unfold reading. simpl. rewrite list_lookup_insert by done. right. destruct (st_index (cs_st cs) !! pk) as [i|] eqn:Hi.
      * left. exists i. split; [done|]. split; [|by left]. exact (so_bound _ (vo_ok _ _ (co_vok _ Hc)) _ _ (virt_index_of _ (cs_pend cs) _ _ Hi)).
      * right. exists None, cs. split; [done|]. split; [done|]. split; [done|]. simpl. intros a Ha. rewrite no_version in Ha by done. done.
    + inversion Hs as [t st pd t' Hjt Hp| |? ? ? ? Hjt|? Hjt]; subst; [|congruence..]. rewrite Hj in Hjt. injection Hjt as <-. simpl in Hp.
      destruct (st_accounts (cs_st cs) !! i) as [b|] eqn:Hb; [|done]. simpl in Hp. injection Hp as <- <- <-. pose proof (lookup_lt_Some _ _ _ Hj) as Hlt.
      unfold reading. simpl. rewrite list_lookup_insert by done. right. right. destruct Hcase as [Hix|(Hg & cs1 & H1 & H2 & Hn)].
      * eexists _, cs. split; [done|]. split; [done|]. split; [done|]. unfold answer. rewrite (version_at_entry _ _ _ _ c Hix Hb).
        destruct (bc_get b c) as [a|]; [|done]. destruct (N.ltb_spec 0 (d_lamports a)); unfold alive; [done|]. intros a' [= <-]. lia.
      * assert (bc_get b c = None) as Hgb by (rewrite (gone_empty _ _ _ Hc Hg Hb); by destruct c). rewrite Hgb in Hone. rewrite Hgb.
        eexists _, cs1. split; [done|]. split; [done|]. split; [exact (creach_trans _ _ _ H2 Hone)|]. simpl. intros a Ha. rewrite no_version in Ha by done. done.
    + inversion Hs as [t st pd t' Hjt Hp| |? ? ? ? Hjt|? Hjt]; subst; [|congruence..]. rewrite Hj in Hjt. injection Hjt as <-. done.
  - destruct Hrd as [Hj|[(i & Hj & Hi & Hcase)|(o & cs1 & Hj & H1 & H2 & Ha)]].
    + left. by eapply thr_other.
    + right. left. exists i. split; [by eapply thr_other|]. destruct (step_virt _ _ _ _ Hc Hs) as (Hlen & _). split; [lia|].
      destruct Hcase as [Hix|(Hg & cs1 & H1 & H2 & Hn)].
      * destruct (entry_kept _ _ _ _ _ _ Hc Hs Hix) as [?|[Hn Hg]]; [by left|]. right. split; [done|]. exists cs'. split; [exact (creach_trans _ _ _ Hr Hone)|]. split; [constructor|done].
      * right. split; [by eapply gone_kept|]. exists cs1. split; [done|]. split; [exact (creach_trans _ _ _ H2 Hone)|done].
    + right. right. exists o, cs1. split; [by eapply thr_other|]. split; [done|]. split; [exact (creach_trans _ _ _ H2 Hone)|done].
Qed.
Lemma reading_reach cs0 j pk c cs cs' : cok cs -> creach cs0 cs -> reading cs0 j pk c cs -> creach cs cs' -> reading cs0 j pk c cs'.
Proof.
  intros Hc Hr Hrd H. revert Hc Hr Hrd. induction H as [|cs F j' cs1 cs2 Hs _ IH]; [done|]. intros Hc Hr Hrd.
  destruct (cok_step _ _ _ _ Hc Hs) as (? & [= <-] & Hc1 & _). apply IH; [done| |exact (reading_step _ _ _ _ _ _ _ _ Hc Hr Hrd Hs)]. eapply creach_trans; [exact Hr|exact (creach_one _ _ _ _ Hs)].
Qed.
