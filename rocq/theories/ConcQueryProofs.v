(** Proofs about queries that run while other calls run. *)
From Verif Require Import Base SMap DataModel FilterModel BincodeModel ByCommitModel ByCommitSpec ByCommitProofs
  StoreModel StoreSpec StoreProofs StoreSlot StoreViews StoreHist ConcModel ConcProofs ConcReads ConcQueryModel ConcQuerySpec.

Section query.
Context (E : ext).
Notation world := (qworld E).

(** ** Executions *)
Lemma qreach_trans a b c : qreach E a b -> qreach E b c -> qreach E a c.
Proof. induction 1; eauto using qreach. Qed.
Lemma qreach_one a b : qstep E a (Done b) -> qreach E a b.
Proof. intros H. eapply qreach_step; [exact H|constructor]. Qed.
Lemma qother qs F j cs1 : cstep (qs_cs qs) F j (Done cs1) -> qstep E qs (Done (QS cs1 (qs_q qs))).
Proof. intros H. exact (qs_other E qs F j (Done cs1) H). Qed.
(** A step is one of the store or one of a query. *)
Lemma qstep_inv qs qs' : qstep E qs (Done qs') ->
  (exists F j cs1, cstep (qs_cs qs) F j (Done cs1) /\ qs' = QS cs1 (qs_q qs)) \/
  (qs_cs qs' = qs_cs qs /\
   ((exists F j q q', qs_q qs !! j = Some q /\ qpiece E F (cs_st (qs_cs qs)) q = Some (Done q') /\ qs_q qs' = <[j := q']> (qs_q qs)) \/
    (exists j p fl c todo todo' out, qs_q qs !! j = Some (QWalk p fl c todo out) /\ Permutation todo' todo /\
       qs_q qs' = <[j := QWalk p fl c todo' out]> (qs_q qs)) \/
    (exists p fl c, qs_q qs' = qs_q qs ++ [QGpa p fl c]))).
Proof.
  intros H. inversion H as [F j r Hs Heq|F j q r Hj Hp Heq|j p fl c todo todo' out Hj Hp Heq|p fl c Heq]; subst.
  - destruct r as [cs1|]; [|done]. simpl in Heq. injection Heq as <-. left. eauto.
  - destruct r as [q'|]; [|done]. simpl in Heq. injection Heq as <-. right. split; [done|]. left. eauto 10.
  - right. split; [done|]. right. left. eauto 12.
  - right. split; [done|]. right. right. eauto.
Qed.
Lemma world_reach Fok Aok P qs qs' : world Fok Aok P qs qs' -> qreach E qs qs'.
Proof.
  induction 1 as [qs|qs F j cs1 qs2 _ Hs _ _ _ IH|qs qs1 qs2 _ Hs _ _ IH]; [constructor|..].
  - eapply qreach_step; [by eapply qother|exact IH].
  - eapply qreach_step; eauto.
Qed.
Lemma reach_world qs qs' : qreach E qs qs' -> world any_filt any_acct any_state qs qs'.
Proof.
  induction 1 as [qs|qs qs1 qs2 Hs _ IH]; [by constructor|].
  destruct (qstep_inv _ _ Hs) as [(F & j & cs1 & Hc & ->)|[He _]]; [by eapply qw_other|by eapply qw_query].
Qed.
Lemma world_mono (Fok : filt -> Prop) (Aok : acct -> Prop) (P : qstate -> Prop) (Fok' : filt -> Prop) (Aok' : acct -> Prop) (P' : qstate -> Prop) qs qs' :
  (forall F, Fok F -> Fok' F) -> (forall a, Aok a -> Aok' a) -> (forall s, P s -> P' s) -> world Fok Aok P qs qs' -> world Fok' Aok' P' qs qs'.
Proof.
  intros HF HA HP. induction 1; [constructor; auto|eapply qw_other; eauto|eapply qw_query; eauto].
Qed.
Lemma world_trans Fok Aok P a b c : world Fok Aok P a b -> world Fok Aok P b c -> world Fok Aok P a c.
Proof. induction 1; intros; [done|eapply qw_other; eauto|eapply qw_query; eauto]. Qed.
Lemma world_first Fok Aok P qs qs' : world Fok Aok P qs qs' -> P qs.
Proof. by destruct 1. Qed.

(** ** What the other calls keep *)
Definition Q (P : acct -> Prop) (cs : cstate) : Prop :=
  (forall j t, cs_thr cs !! j = Some t -> match t with TUpd a _ | TIdx a _ | TStat a _ _ | TEntry a _ => P a | _ => True end) /\
  st_all P (cs_st cs).
Lemma Q_empty P : Q P cs_empty.
Proof. split; [intros j t H|intros i b H]; simpl in H; by rewrite lookup_nil in H. Qed.
Lemma occupied_all P F st a c i st' r : st_all P st -> P a -> occupied F st a c i = Done (st', r) -> st_all P st'.
Proof.
  unfold occupied. intros HP Ha. destruct (st_accounts st !! i) as [b|] eqn:Hb; [|done]. simpl.
  pose proof (bc_all_update P b a c (HP _ _ Hb) Ha) as Hu. destruct (bc_update b a c) as [b' upd]. simpl in Hu.
  assert (forall ix ow sl x, bc_all P x -> st_all P (Store ix ow sl (<[i := x]> (st_accounts st)))) as Hins.
  { intros ix ow sl x Hx k y. simpl. intros Hy. apply list_lookup_insert_Some in Hy as [(-> & <- & _)|[_ Hy]]; [done|by eapply HP]. }
  destruct upd; [|intros [= <- <-]; by apply Hins]. destruct (bc_get b c) as [prev|]; [|intros [= <- <-]; by apply Hins].
  destruct (update_owner_delete F (st_owners st) prev a i c) as [[ow [|]]|]; simpl; [| |done]; intros [= <- <-]; apply Hins; [apply bc_all_empty|done].
Qed.
Lemma promote_all_P P F st out i s c st' out' : (forall k b, st_accounts st !! k = Some b -> bc_ok b) -> st_all P st -> promote_one F st out i s c = Done (st', out') -> st_all P st'.
Proof.
  unfold promote_one. intros Hbc HP. destruct (st_accounts st !! i) as [b|] eqn:Hb; [|done]. simpl.
  pose proof (bc_all_promote P b s c (Hbc _ _ Hb) (HP _ _ Hb)) as Hu. destruct (bc_promote b s c) as [b' r]. simpl in Hu.
  assert (forall ix ow sl x, bc_all P x -> st_all P (Store ix ow sl (<[i := x]> (st_accounts st)))) as Hins.
  { intros ix ow sl x Hx k y. simpl. intros Hy. apply list_lookup_insert_Some in Hy as [(-> & <- & _)|[_ Hy]]; [done|by eapply HP]. }
  destruct r as [[a [prev|]]|]; [|intros [= <- <-]; by apply Hins..]. destruct (_ || _); [|intros [= <- <-]; by apply Hins].
  destruct (update_owner_delete F (st_owners st) prev a i c) as [[ow [|]]|]; simpl; [| |done]; intros [= <- <-]; apply Hins; [apply bc_all_empty|done].
Qed.
Definition carries (P : acct -> Prop) (t : thr) : Prop := match t with TUpd a _ | TIdx a _ | TStat a _ _ | TEntry a _ => P a | _ => True end.
Lemma piece_Q P F st pd t st' pd' t' : vok st pd -> st_all P st -> carries P t -> piece F st pd t = Some (Done (st', pd', t')) -> st_all P st' /\ carries P t'.
Proof.
  intros Hv HP Ht Hp. destruct t as [a c|a c|a c i|a c|pk|si c|c l out|pk c|i c|r]; simpl in Hp, Ht.
  - destruct (negb (is_deleted a) && negb (fl_sat F a)); [destruct (pd !! d_pubkey a); [done|destruct (contains_key _ _)]|]; by injection Hp as <- <- <-.
  - destruct (pd !! d_pubkey a); [done|]. injection Hp as <- <- <-. split; [done|]. by destruct (st_index st !! d_pubkey a).
  - destruct (add_to_status (st_slots st) (d_slot a) i c) as [sl c']. by injection Hp as <- <- <-.
  - destruct (pd !! d_pubkey a) eqn:Hpd; [done|]. destruct (st_index st !! d_pubkey a) as [i|] eqn:Hi.
    + destruct (occupied F st a c i) as [[st1 b]|] eqn:Ho; [|done]. injection Hp as <- <- <-. split; [|done]. by eapply occupied_all.
    + destruct (fl_sat F a); injection Hp as <- <- <-; [|done]. split; [|done]. intros i b. simpl. intros Hb.
      apply lookup_app_Some in Hb as [Hb|[_ Hb]]; [by eapply HP|]. apply list_lookup_singleton_Some in Hb as [_ <-].
      rewrite bc_new_update. apply bc_all_update; [apply bc_all_empty|done].
  - destruct (pd !! pk) as [[i a c [|[|n]]]|]; [..|done]; by injection Hp as <- <- <-.
  - destruct (slot_phase (st_slots st) si c) as [[sl wa]|]; [|done]. by injection Hp as <- <- <-.
  - destruct l as [|[i s] l]; [by injection Hp as <- <- <-|]. destruct (promote_one F st out i s c) as [[st1 out1]|] eqn:Ho; [|done].
    injection Hp as <- <- <-. split; [|done]. exact (promote_all_P P F st out i s c st1 out1 (so_bc _ (vo_ok _ _ Hv)) HP Ho).
  - destruct (pd !! pk); [done|]. injection Hp as <- <- <-. split; [done|]. by destruct (st_index st !! pk).
  - destruct (st_accounts st !! i); [|done]. by injection Hp as <- <- <-.
  - done.
Qed.
Lemma step_Q (P : acct -> Prop) cs F j cs' : cok cs -> Q P cs -> cstep cs F j (Done cs') -> (forall a c, cs_thr cs' = cs_thr cs ++ [TUpd a c] -> P a) -> Q P cs'.
Proof.
  intros Hco [Ht HP] Hs Hcall. inversion Hs as [t st pd t' Hj Hp| |c l l' out Hj Hl|t Hj Hlen Hc]; subst; simpl in *.
  - destruct (piece_Q P F _ _ _ _ _ _ (co_vok _ Hco) HP (Ht _ _ Hj) Hp) as [HP' Ht']. split; [|done]. simpl. intros k t0 Hk.
    apply list_lookup_insert_Some in Hk as [(-> & <- & _)|[_ Hk]]; [exact Ht'|by eapply Ht].
  - split; [|done]. simpl. intros k t0 Hk. apply list_lookup_insert_Some in Hk as [(-> & <- & _)|[_ Hk]]; [done|by eapply Ht].
  - split; [|done]. simpl. intros k t0 [Hk|[_ Hk]]%lookup_app_Some; [by eapply Ht|].
    apply list_lookup_singleton_Some in Hk as [_ <-]. destruct t; try done. by eapply Hcall.
Qed.

(** ** The index of owners *)
Lemma occupied_own F st a c i b st' r : st_accounts st !! i = Some b -> bc_ok b -> bc_all (fun x => d_pubkey x = d_pubkey a) b ->
  occupied F st a c i = Done (st', r) ->
  (forall p k, k <> i -> k ∈ own (st_owners st') p <-> k ∈ own (st_owners st) p) /\
  (st_index st' = delete (d_pubkey a) (st_index st) \/
   st_index st' = st_index st /\ forall p, i ∈ own (st_owners st) p -> ~ i ∈ own (st_owners st') p ->
     c = Finalized /\ alive a /\ fl_sat F a = true /\ d_owner a <> p).
Proof.
  intros Hb Hbc Hall. unfold occupied. rewrite Hb. simpl. destruct (bc_update b a c) as [b' upd].
  destruct upd; [|intros [= <- <-]; simpl; split; [done|right; split; [done|]; tauto]].
  destruct (bc_get b c) as [prev|] eqn:Hg; [|intros [= <- <-]; simpl; split; [done|right; split; [done|]; tauto]].
  pose proof (bc_all_get _ b c prev Hbc Hall Hg) as Hpk. simpl in Hpk.
  destruct (update_owner_delete_spec F (st_owners st) prev a i c Hpk) as (ow & del & Hu & Hdel & H3 & H4). rewrite Hu. simpl.
  destruct del; intros [= <- <-]; simpl; (split; [done|]); [by left|]. right. split; [done|]. intros p Hi Hn.
  rewrite H4 in Hn. assert (~ (c = Finalized /\ d_owner prev <> d_owner a /\ (is_deleted a = true \/ fl_sat F a = false))) as Hnd by (intros Hx; apply Hdel in Hx; done).
  destruct (decide (c = Finalized)) as [->|Hc]; [|exfalso; apply Hn; left; split; [done|]; tauto].
  destruct (decide (d_owner prev = d_owner a)) as [Ho|Ho]; [exfalso; apply Hn; left; split; [done|]; tauto|].
  destruct (is_deleted a) eqn:Hda; [exfalso; apply Hnd; tauto|]. destruct (fl_sat F a) eqn:Hsat; [|exfalso; apply Hnd; tauto].
  split; [done|]. split; [by apply is_deleted_alive|]. split; [done|]. intros He. apply Hn. right. done.
Qed.
Lemma promote_own F st out i s c b st' out' : st_accounts st !! i = Some b -> bc_ok b ->
  (exists pk, bc_all (fun z => d_pubkey z = pk) b) ->
  promote_one F st out i s c = Done (st', out') ->
  (forall p k, k <> i -> k ∈ own (st_owners st') p <-> k ∈ own (st_owners st) p) /\
  ((exists a, sm_get s (bc_proc b) = Some a /\ st_index st' = delete (d_pubkey a) (st_index st)) \/
   st_index st' = st_index st /\ forall p, i ∈ own (st_owners st) p -> ~ i ∈ own (st_owners st') p ->
     exists a, sm_get s (bc_proc b) = Some a /\ c = Finalized /\ alive a /\ fl_sat F a = true /\ d_owner a <> p).
Proof.
  intros Hb Hbc [pk Hall]. unfold promote_one. rewrite Hb. simpl. destruct (bc_promote b s c) as [b' r] eqn:Hpr.
  destruct r as [[a [prev|]]|]; [|intros [= <- <-]; simpl; split; [done|right; split; [done|]; tauto]..].
  pose proof (promote_report_in b s c a (Some prev)) as Hrep. rewrite Hpr in Hrep. destruct (Hrep eq_refl) as (Hga & Hgp & _).
  pose proof (bc_all_get _ b c prev Hbc Hall Hgp) as Hpk. simpl in Hpk. pose proof (proj1 Hall s a Hga) as Hpa. simpl in Hpa.
  destruct (_ || _); [|intros [= <- <-]; simpl; split; [done|right; split; [done|]; tauto]].
  destruct (update_owner_delete_spec F (st_owners st) prev a i c) as (ow & del & Hu & Hdel & H3 & H4); [congruence|]. rewrite Hu. simpl.
  destruct del; intros [= <- <-]; simpl; (split; [done|]); [by left; exists a|]. right. split; [done|]. intros p Hi Hn. exists a. split; [done|].
  rewrite H4 in Hn. assert (~ (c = Finalized /\ d_owner prev <> d_owner a /\ (is_deleted a = true \/ fl_sat F a = false))) as Hnd by (intros Hx; apply Hdel in Hx; done).
  destruct (decide (c = Finalized)) as [->|Hc]; [|exfalso; apply Hn; left; split; [done|]; tauto].
  destruct (decide (d_owner prev = d_owner a)) as [Ho|Ho]; [exfalso; apply Hn; left; split; [done|]; tauto|].
  destruct (is_deleted a) eqn:Hda; [exfalso; apply Hnd; tauto|]. destruct (fl_sat F a) eqn:Hsat; [|exfalso; apply Hnd; tauto].
  split; [done|]. split; [by apply is_deleted_alive|]. split; [done|]. intros He. apply Hn. right. done.
Qed.

Record oinv (own_of : pubkey -> pubkey) (st : store) (pd : gmap pubkey pend) : Prop := Oinv {
  oi_ix : forall pk i, st_index st !! pk = Some i -> i ∈ own (st_owners st) (own_of pk);
  oi_pd : forall pk p, pd !! pk = Some p -> d_owner (pd_acct p) = own_of pk /\ (pd_stage p <> 0%nat -> pd_i p ∈ own (st_owners st) (own_of pk));
}.

Lemma piece_oinv own_of F st pd t st' pd' t' : vok st pd -> tok (length (st_accounts st)) t -> st_all (one_owner own_of) st -> carries (one_owner own_of) t -> no_closed F ->
  oinv own_of st pd -> piece F st pd t = Some (Done (st', pd', t')) -> oinv own_of st' pd'.
Proof.
  intros Hv Htok HA Ht HF [Hix Hpd] Hp. pose proof (vo_ok _ _ Hv) as Hok.
  assert (forall a, fl_sat F a = true -> alive a) as Hsat.
  { intros a Ha. apply is_deleted_alive. destruct (is_deleted a) eqn:E0; [|done]. rewrite HF in Ha; [done|]. intros ?%is_deleted_alive. congruence. }
  destruct t as [a c|a c|a c i|a c|pk|si c|c l out|pk c|i c|r]; simpl in Hp, Ht.
  - destruct (negb (is_deleted a) && negb (fl_sat F a)); [destruct (pd !! d_pubkey a); [done|destruct (contains_key _ _)]|]; by injection Hp as <- <- <-.
  - destruct (pd !! d_pubkey a); [done|]. by injection Hp as <- <- <-.
  - destruct (add_to_status (st_slots st) (d_slot a) i c) as [sl c']. by injection Hp as <- <- <-.
  - destruct (pd !! d_pubkey a) eqn:Hpda; [done|]. destruct (st_index st !! d_pubkey a) as [i|] eqn:Hi.
    + destruct (occupied F st a c i) as [[st1 b]|] eqn:Ho; [|done]. injection Hp as <- <- <-.
      pose proof (virt_index_of _ pd _ _ Hi) as Hvi. destruct (so_entry _ _ _ Hok Hvi) as (b0 & Hb0 & Hbc & Hall & _). simpl in Hb0.
      destruct (occupied_own F st a c i b0 _ _ Hb0 Hbc Hall Ho) as [Hne Hcase].
      constructor.
      * intros pk k Hk. assert (st_index st !! pk = Some k) as Hk0.
        { destruct Hcase as [Hd|[Hd _]]; rewrite Hd in Hk; [|done]. by apply lookup_delete_Some in Hk as [_ Hk]. }
        pose proof (Hix _ _ Hk0) as Hin. destruct (decide (k = i)) as [->|Hki]; [|by apply Hne].
        pose proof (so_inj _ Hok _ _ _ Hvi (virt_index_of _ pd _ _ Hk0)) as <-.
        destruct Hcase as [Hd|[_ Hl]]; [rewrite Hd, lookup_delete in Hk; done|].
        destruct (decide (i ∈ own (st_owners st1) (own_of (d_pubkey a)))) as [|Hn]; [done|]. destruct (Hl _ Hin Hn) as (_ & Hal & _ & Hno). by destruct Hno; apply Ht.
      * intros pk p Hpp. destruct (Hpd _ _ Hpp) as [H1 H2]. split; [done|]. intros Hs. apply Hne; [|auto]. intros He.
        pose proof (virt_pend_of _ _ _ _ Hv Hpp) as Hvp. rewrite He in Hvp. pose proof (so_inj _ Hok _ _ _ Hvi Hvp) as <-. congruence.
    + destruct (fl_sat F a) eqn:Hs; injection Hp as <- <- <-; [|done]. constructor; [done|]. simpl. intros pk p Hpp.
      apply lookup_insert_Some in Hpp as [[<- <-]|[_ Hpp]]; [|by apply Hpd]. simpl. split; [|done]. apply Ht. by apply Hsat.
  - destruct (pd !! pk) as [[i a c n]|] eqn:Hpp; [|done]. destruct (Hpd _ _ Hpp) as [Ho Hs]. simpl in Ho, Hs.
    assert (forall q k, k ∈ own (st_owners st) q -> k ∈ own (add_owner (st_owners st) i (d_owner a)) q) as Hadd.
    { intros q k Hk. rewrite own_add. destruct (decide (d_owner a = q)) as [<-|]; set_solver. }
    destruct n as [|[|n]]; injection Hp as <- <- <-; constructor; simpl.
    + intros q k Hk. apply Hadd. auto.
    + intros q p Hq. apply lookup_insert_Some in Hq as [[<- <-]|[_ Hq]]; simpl.
      * split; [done|]. intros _. rewrite <- Ho, own_add, decide_True by done. set_solver.
      * destruct (Hpd _ _ Hq) as [H1 H2]. split; [done|]. intros H. apply Hadd. auto.
    + done.
    + intros q p Hq. apply lookup_insert_Some in Hq as [[<- <-]|[_ Hq]]; simpl; [split; [done|]; intros _; by apply Hs|auto].
    + intros q k Hq. apply lookup_insert_Some in Hq as [[<- <-]|[_ Hq]]; [by apply Hs|auto].
    + intros q p [_ Hq]%lookup_delete_Some. auto.
  - destruct (slot_phase (st_slots st) si c) as [[sl wa]|]; [|done]. by injection Hp as <- <- <-.
  - destruct l as [|[i s] l]; [by injection Hp as <- <- <-|]. destruct (promote_one F st out i s c) as [[st1 out1]|] eqn:Ho; [|done].
    injection Hp as <- <- <-. simpl in Htok. apply Forall_cons in Htok as [Hlt _]. destruct (lookup_lt_is_Some_2 (st_accounts st) i Hlt) as [b Hb].
    pose proof (so_bc _ Hok i b Hb) as Hbc.
    assert ((exists q, virt_index st pd !! q = Some i) \/ forall q, virt_index st pd !! q <> Some i) as [[q Hq]|Hnone].
    { destruct (decide (map_Exists (fun _ j => j = i) (virt_index st pd))) as [(q & ? & ? & ->)|Hno]; [eauto|]. right. intros q Hq. apply Hno. exists q, i. done. }
    + destruct (so_pk _ Hok q i b Hq Hb) as [Hall _].
      destruct (promote_own F st out i s c b _ _ Hb Hbc (ex_intro _ q Hall) Ho) as [Hne Hcase].
      assert (forall pk, st_index st1 = st_index st -> virt_index st pd !! pk = Some i -> i ∈ own (st_owners st) (own_of pk) -> i ∈ own (st_owners st1) (own_of pk)) as Hkeep.
      { intros pk Hsame Hpk Hin. destruct (decide (i ∈ own (st_owners st1) (own_of pk))) as [|Hn]; [done|].
        pose proof (so_inj _ Hok _ _ _ Hpk Hq) as ->. destruct Hcase as [(a & Hga & Hd)|[_ Hl]].
        - exfalso. pose proof (proj1 Hall s a Hga) as Hpa. simpl in Hpa. rewrite Hpa, Hsame in Hd.
          assert (st_index st !! q = None) as Hnq by (rewrite Hd; apply lookup_delete).
          rewrite virt_lookup, Hnq in Hq. destruct (pd !! q) as [p|] eqn:Hpq; [|done].
          (* an entry on its way has one version only: nothing to compare *)
          revert Ho. unfold promote_one. rewrite Hb. simpl. destruct (bc_promote b s c) as [b' r] eqn:Hpr.
          destruct r as [[a2 [prev|]]|]; [|by intros [= <- _]; simpl in Hn..].
          pose proof (promote_report_in b s c a2 (Some prev)) as Hrep. rewrite Hpr in Hrep. destruct (Hrep eq_refl) as (Hg2 & Hgp & _).
          simpl in Hq. injection Hq as Hqi. assert (st_accounts st !! pd_i p = Some b) as Hbp by (by rewrite Hqi).
          pose proof (vo_single _ _ Hv _ _ _ Hpq Hbp) as Hsingle. pose proof (proj1 Hsingle s a2 Hg2) as Ha2. pose proof (bc_all_get _ b c prev Hbc Hsingle Hgp) as Hprev.
          simpl in *. subst a2 prev. destruct (_ || _); [|by intros [= <- _]; simpl in Hn]. unfold update_owner_delete. rewrite !bool_decide_true by done. simpl. by intros [= <- _].
        - destruct (Hl _ Hin Hn) as (a & Hga & _ & Hal & _ & Hno). destruct Hno. pose proof (proj1 (HA i b Hb) s a Hga) as Hoa.
          rewrite (Hoa Hal). pose proof (proj1 Hall s a Hga) as Hpa. simpl in Hpa. by rewrite Hpa. }
      constructor.
      * intros pk k Hk. assert (st_index st !! pk = Some k) as Hk0.
        { destruct Hcase as [(a & _ & Hd)|[Hd _]]; rewrite Hd in Hk; [|done]. by apply lookup_delete_Some in Hk as [_ Hk]. }
        pose proof (Hix _ _ Hk0) as Hin. destruct (decide (k = i)) as [->|Hki]; [|by apply Hne].
        pose proof (virt_index_of _ pd _ _ Hk0) as Hvk. pose proof (so_inj _ Hok _ _ _ Hvk Hq) as ->.
        apply Hkeep; [|done|done]. destruct Hcase as [(a & Hga & Hd)|[Hd _]]; [|done]. exfalso.
        pose proof (proj1 Hall s a Hga) as Hpa. simpl in Hpa. by rewrite Hd, Hpa, lookup_delete in Hk.
      * intros pk p Hpp. destruct (Hpd _ _ Hpp) as [H1 H2]. split; [done|]. intros Hst. specialize (H2 Hst). destruct (decide (pd_i p = i)) as [He|Hki]; [|by apply Hne].
        rewrite He in *. pose proof (virt_pend_of _ _ _ _ Hv Hpp) as Hvp. rewrite He in Hvp. apply Hkeep; [|done|done].
        destruct Hcase as [(a & Hga & Hd)|[Hd _]]; [|done]. rewrite Hd. apply delete_notin.
        pose proof (so_inj _ Hok _ _ _ Hvp Hq) as ->. pose proof (proj1 Hall s a Hga) as Hpa. simpl in Hpa. rewrite Hpa. exact (vo_disj _ _ Hv _ _ Hpp).
    + assert (b = bc_empty) as -> by exact (so_orphan _ Hok i b Hb Hnone).
      destruct (promote_own F st out i s c bc_empty _ _ Hb Hbc (ex_intro _ 0 (bc_all_empty _)) Ho) as [Hne Hcase].
      destruct Hcase as [(a & Hga & _)|[Hd Hl]]; [done|]. constructor.
      * intros pk k Hk. rewrite Hd in Hk. apply Hne; [|auto]. intros ->. apply (Hnone pk). by rewrite virt_lookup, Hk.
      * intros pk p Hpp. destruct (Hpd _ _ Hpp) as [H1 H2]. split; [done|]. intros Hst. apply Hne; [|auto]. intros He.
        apply (Hnone pk). rewrite <- He. exact (virt_pend_of _ _ _ _ Hv Hpp).
  - destruct (pd !! pk); [done|]. by injection Hp as <- <- <-.
  - destruct (st_accounts st !! i); [|done]. by injection Hp as <- <- <-.
  - done.
Qed.
Lemma step_oinv own_of cs F j cs' : cok cs -> Q (one_owner own_of) cs -> no_closed F -> oinv own_of (cs_st cs) (cs_pend cs) -> cstep cs F j (Done cs') ->
  oinv own_of (cs_st cs') (cs_pend cs').
Proof.
  intros Hc [Ht HA] HF HO Hs. inversion Hs as [t st pd t' Hj Hp| |c l l' out Hj Hl|t Hj Hlen Hcl]; subst; simpl in *; [|done..].
  eapply piece_oinv; [exact (co_vok _ Hc)|exact (co_thr _ Hc _ _ Hj)|exact HA|exact (Ht _ _ Hj)|done..].
Qed.
Lemma oinv_empty own_of : oinv own_of store_empty ∅.
Proof. constructor; simpl; intros *; by rewrite lookup_empty. Qed.
End query.
