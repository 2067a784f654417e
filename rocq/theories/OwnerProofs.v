(** The owner sets hold every account that is shown, although owners change. *)
From Verif Require Import Base SMap DataModel FilterModel BincodeModel ByCommitModel ByCommitSpec ByCommitProofs
  StoreModel StoreSpec StoreProofs StoreSlot StoreViews StoreHist OwnerSpec.

Lemma applied_effective st a c : applied_at st a c = effective st a c.
Proof. unfold applied_at, effective, slot_commit. destruct c; destruct (st_slots st !! d_slot a); done. Qed.

(** ** The versions of an entry that are or can be shown *)
Definition inL (b : bycom) (x : acct) : Prop :=
  bc_conf b = Some x \/ bc_fin b = Some x \/
  exists k, sm_get k (bc_proc b) = Some x /\ forall y, bc_fin b = Some y -> d_slot y <= k.
Lemma inL_get b c x : bc_ok b -> bc_get b c = Some x -> inL b x.
Proof.
  intros Hb. destruct c; simpl; [|by left|by right; left].
  destruct (last (bc_proc b)) as [[k p]|] eqn:Hl; [|by left]. intros [= ->]. right; right. exists k.
  pose proof (ok_sorted _ Hb) as Hs. split; [by apply sm_last_spec in Hl as [? _]|]. intros y Hy.
  destruct (ok_fin _ Hb _ Hy) as (z & Hz & H1). destruct (ok_conf _ Hb _ Hz) as (k' & p' & Hl' & H2). rewrite Hl in Hl'. injection Hl' as <- <-. lia.
Qed.
Lemma inL_fin b x y : bc_ok b -> inL b x -> bc_fin b = Some y -> d_slot y <= d_slot x.
Proof.
  intros Hb [Hx|[Hx|(k & Hx & H)]] Hy.
  - destruct (ok_fin _ Hb _ Hy) as (z & Hz & H1). congruence.
  - rewrite Hx in Hy. injection Hy as ->. lia.
  - rewrite (ok_key _ Hb _ _ Hx). auto.
Qed.
Lemma inL_all P b x : bc_all P b -> inL b x -> P x.
Proof. intros (H1 & H2 & H3) [H|[H|(k & H & _)]]; eauto. Qed.
Lemma inL_update b a c x : bc_ok b -> inL (bc_update b a c).1 x -> x = a \/ inL b x.
Proof.
  intros Hb. rewrite bc_update_unfold. simpl. unfold inL; simpl. intros [H|[H|(k & H & Hk)]].
  - unfold upd_conf in H. destruct c; [auto|destruct (newer _ _); [injection H as ->; auto|auto]..].
  - unfold upd_fin in H. destruct c; [auto..|destruct (newer _ _); [injection H as ->; auto|auto]].
  - assert (x = a \/ sm_get k (bc_proc b) = Some x) as [->|Hg]; [|by left|].
    { destruct (decide (k = d_slot a)) as [->|Hne]; [|rewrite upd_proc_get_ne in H by done; auto].
      destruct (upd_proc_get b a) as (p & Hp & _ & [->|Hp']); rewrite H in Hp; injection Hp as ->; auto. }
    right. right; right. exists k. split; [done|]. intros y Hy. unfold upd_fin in Hk. destruct c; [by apply Hk..|].
    destruct (newer (bc_fin b) a) eqn:Hn; [|by apply Hk]. pose proof (Hk a eq_refl) as Hka. pose proof (newer_version_le _ _ _ Hn Hy) as Hle.
    unfold version_le in Hle. lia.
Qed.
Lemma inL_promote b s c x : bc_ok b -> inL (bc_promote b s c).1 x -> inL b x.
Proof.
  intros Hb. unfold inL at 1. rewrite bc_promote_conf, bc_promote_fin, bc_promote_proc.
  assert (forall a, sm_get s (bc_proc b) = Some a -> (forall y, bc_fin b = Some y -> d_slot y <= d_slot a) -> inL b a) as Hin.
  { intros a Ha Hy. right; right. exists s. split; [done|]. intros y Hfy. rewrite <- (ok_key _ Hb _ _ Ha). auto. }
  assert (forall o, (forall y, bc_fin b = Some y -> exists z, o = Some z /\ d_slot y <= d_slot z) -> take_over b s o = Some x -> o = Some x \/ inL b x) as Hto.
  { intros o Ho. unfold take_over, promoted. destruct (sm_get s (bc_proc b)) as [a|] eqn:Ha; [|by left].
    destruct o as [z|]; [destruct (N.ltb_spec (d_slot z) (d_slot a)); intros [= ->]; [right|by left]|intros [= ->]; right]; apply Hin; try done.
    - intros y Hy. destruct (Ho y Hy) as (z' & [= <-] & ?). lia.
    - intros y Hy. destruct (Ho y Hy) as (z' & [=] & ?). }
  intros [H|[H|(k & H & Hk)]].
  - destruct c; [by left|..]; (apply Hto in H as [H|H]; [by left|done|]); intros y Hy; by apply (ok_fin _ Hb).
  - destruct c; [by right; left..|]. apply Hto in H as [H|H]; [by right; left|done|]. intros y Hy. by exists y.
  - assert (sm_get k (bc_proc b) = Some x) as Hg by (destruct c; [done..|]; by eapply prune_get_sub; [apply ok_sorted|]).
    right; right. exists k. split; [done|]. intros y Hy. destruct c; [by apply Hk..|]. unfold take_over in Hk.
    destruct (sm_get s (bc_proc b)) as [a|]; [|by apply Hk]. destruct (promoted_cases (bc_fin b) a) as (z & Hz & _ & _ & Hm).
    pose proof (Hk z Hz). pose proof (Hm y Hy) as Hle. unfold version_le in Hle. lia.
Qed.

(** ** The invariant *)
Section owners.
Context (D : acct -> Prop) (HO : owners_settle D) (HC : closed_apart D).
Definition linv (st : store) : Prop := forall pk i b x, st_index st !! pk = Some i -> st_accounts st !! i = Some b ->
  inL b x -> alive x -> i ∈ own (st_owners st) (d_owner x).

Lemma linv_upd F st a c st' r : st_ok st -> st_all D st -> linv st -> D a -> (alive a -> fl_sat F a = true) -> in_time st a c ->
  update_account F st a c = Done (st', r) -> linv st'.
Proof.
  intros Hok HD HI Ha Hsat Htime H. apply update_account_inv in H; [|done].
  destruct H as [Hi Hs|sl' cx Hi Hs Hadd|i b sl' c' b' upd ow' Hi Hb Hadd Hu Hud Hud0|i b sl' c' b' prev ow' Hi Hb Hadd Hu Hprev Hud].
  - done.
  - intros pk j b x; simpl. destruct (decide (pk = d_pubkey a)) as [->|Hpk].
    + rewrite lookup_insert. intros [= <-]. rewrite lookup_app_r, Nat.sub_diag by lia. intros [= <-]. rewrite bc_new_update.
      intros [->|Hx]%inL_update _; [|..|apply bc_ok_empty].
      * rewrite own_add, decide_True by done. set_solver.
      * by destruct Hx as [?|[?|(? & ? & ?)]].
    + rewrite lookup_insert_ne by done. intros Hj Hbj Hx Hal. rewrite lookup_app_l in Hbj by (by eapply so_bound).
      pose proof (HI _ _ _ _ Hj Hbj Hx Hal). rewrite own_add. destruct (decide _) as [Heq|]; [rewrite Heq|]; set_solver.
  - pose proof (effective_add _ _ _ _ _ _ Hadd) as Hc'. pose proof (so_bc _ Hok _ _ Hb) as Hbc.
    assert (forall x, inL b x -> D x /\ d_pubkey x = d_pubkey a) as HDL.
    { intros x Hx. split; [exact (inL_all D b x (HD i b Hb) Hx)|]. destruct (so_pk _ Hok _ _ _ Hi Hb) as [Hall _].
      exact (inL_all (fun x => d_pubkey x = d_pubkey a) b x Hall Hx). }
    destruct (proj1 (tracked_processed st (d_pubkey a) Hok)) as [p Hp]; [by exists i|].
    specialize (Htime p Hp). rewrite applied_effective, <- Hc' in Htime.
    rewrite (version_at_entry _ _ _ _ _ Hi Hb) in Hp. pose proof (inL_get _ _ _ Hbc Hp) as HpL.
    assert (forall x, inL b x -> alive x -> i ∈ own (st_owners st) (d_owner x)) as HIb by (intros x; by apply (HI _ _ _ _ Hi Hb)).
    assert (forall x, inL b x -> alive a -> d_owner a = d_owner x -> i ∈ own (st_owners st) (d_owner a)) as Hsame.
    { intros x Hx Hal Ho. rewrite Ho. apply HIb; [done|]. destruct (N.eq_dec (d_lamports x) 0) as [Hz|]; [|unfold alive; lia].
      destruct (HDL x Hx). destruct (HC a x Ha); [done|congruence|done|unfold alive; lia|done]. }
    assert (forall y, c' = Finalized -> bc_fin b = Some y -> d_owner y <> d_owner a -> alive a -> forall x, inL b' x -> alive x -> d_owner x <> d_owner y) as Hnot.
    { intros y Hf Hy Hne Hal x Hx Hxal Hxy. assert (inL b y) as HyL by (by right; left). destruct (HDL y HyL) as [HDy Hpky].
      assert (D x /\ d_pubkey x = d_pubkey a) as [HDx Hpkx].
      { replace b' with (bc_update b a c').1 in Hx by (by rewrite Hu). apply inL_update in Hx as [->|Hx]; [done|by apply HDL|done]. }
      assert (alive y) as Hyal. { destruct (N.eq_dec (d_lamports y) 0) as [Hz|]; [|unfold alive; lia]. destruct (HC x y HDx HDy); [congruence|done|unfold alive; lia|done]. }
      destruct (HDL p HpL) as [HDp Hpkp].
      destruct (newer (bc_fin b) a) eqn:Hn.
      - assert (bc_fin b' = Some a) as Hfin. { replace b' with (bc_update b a c').1 by (by rewrite Hu). rewrite bc_update_unfold. simpl. unfold upd_fin. by rewrite Hf, Hn. }
        assert (bc_ok b') as Hb' by (replace b' with (bc_update b a c').1 by (by rewrite Hu); by apply bc_ok_update).
        pose proof (inL_fin _ _ _ Hb' Hx Hfin). pose proof (newer_version_le _ _ _ Hn Hy) as Hle.
        apply Hne. symmetry. apply (HO y a x); first [done|congruence|unfold version_le in Hle; lia].
      - apply newer_false in Hn as (y' & Hy' & Hle). rewrite Hy in Hy'. injection Hy' as <-.
        assert (d_owner a = d_owner p) as Hap.
        { destruct Htime as [?|[?|(y' & Hy' & H1)]]; [done|congruence|]. exfalso. rewrite (version_at_entry _ _ _ _ _ Hi Hb), Hf in Hy'. simpl in Hy'.
          rewrite Hy in Hy'. injection Hy' as <-. destruct (H1 Hf); congruence. }
        assert (alive p) as Hpal. { destruct (N.eq_dec (d_lamports p) 0) as [Hz|]; [|unfold alive; lia]. destruct (HC a p Ha HDp); [done|done|unfold alive; lia|done]. }
        apply Hne. apply (HO a y p); first [done|congruence|by eapply inL_fin|unfold version_le in Hle; lia]. }
    intros pk j bj x; simpl. intros Hj Hbj Hx Hal. destruct (decide (j = i)) as [->|Hne].
    2:{ rewrite list_lookup_insert_ne in Hbj by done. pose proof (HI _ _ _ _ Hj Hbj Hx Hal) as Hin.
        destruct upd; [|assert (ow' = st_owners st) as -> by (apply Hud0; by left); done].
        destruct (bc_get b c') as [prev|] eqn:Hprev; [|assert (ow' = st_owners st) as -> by (apply Hud0; by right); done].
        destruct (update_owner_delete_spec F (st_owners st) prev a i c') as (ow2 & del2 & H2 & Hdel & H3 & H4); [exact (entry_pk _ _ _ _ _ _ Hok Hi Hb Hprev)|].
        rewrite (Hud prev eq_refl eq_refl) in H2. injection H2 as <- <-. by apply H3. }
    rewrite list_lookup_insert in Hbj by (by eapply lookup_lt_Some). injection Hbj as <-.
    assert (x = a \/ inL b x) as Hxx. { replace b' with (bc_update b a c').1 in Hx by (by rewrite Hu). by apply inL_update in Hx. }
    destruct upd; cycle 1.
    { assert (ow' = st_owners st) as -> by (apply Hud0; by left). destruct Hxx as [->|Hxx]; [|by apply HIb].
      rewrite bc_update_unfold in Hu. injection Hu as Hbb Hupd. apply orb_false_iff in Hupd as [Hpc Hlev].
      assert (upd_proc b a = bc_proc b) as Hup by (unfold upd_proc_changed in Hpc; unfold upd_proc; destruct (sm_get _ _); [by rewrite Hpc|done]).
      destruct Htime as [Ho|[Hcp|(y & Hy & Hyf)]]; [by eapply Hsame| |].
      - rewrite Hcp in Hbb. simpl in Hbb. rewrite Hup in Hbb. apply HIb; [|done]. rewrite <- Hbb in Hx. by destruct b.
      - destruct c' eqn:Ec.
        + simpl in Hbb. rewrite Hup in Hbb. apply HIb; [|done]. rewrite <- Hbb in Hx. by destruct b.
        + simpl in Hbb. rewrite Hup, Hlev in Hbb. apply HIb; [|done]. rewrite <- Hbb in Hx. by destruct b.
        + rewrite (version_at_entry _ _ _ _ _ Hi Hb) in Hy. simpl in Hy. destruct (Hyf eq_refl) as [Ho|Hn]; [eapply Hsame; [by right; left|done|done]|].
          apply newer_false in Hlev as (y' & Hy' & Hle). congruence. }
    destruct (bc_get b c') as [prev|] eqn:Hprev; cycle 1.
    { assert (ow' = st_owners st) as -> by (apply Hud0; by right). destruct Hxx as [->|Hxx]; [|by apply HIb].
      destruct Htime as [Ho|[Hcp|(y & Hy & _)]]; [by eapply Hsame|congruence|]. rewrite (version_at_entry _ _ _ _ _ Hi Hb) in Hy. congruence. }
    pose proof (inL_get _ _ _ Hbc Hprev) as HprevL. destruct (HDL _ HprevL) as [HDprev Hpkprev].
    destruct (update_owner_delete_spec F (st_owners st) prev a i c' Hpkprev) as (ow2 & del2 & H2 & Hdel & H3 & H4).
    rewrite (Hud prev eq_refl eq_refl) in H2. injection H2 as <- <-. apply H4.
    destruct Hxx as [->|Hxx].
    + destruct (decide (d_owner prev = d_owner a)) as [Ho|Ho].
      * left. split; [by eapply Hsame|]. by intros (_ & ? & _).
      * right. split_and!; [done|done|by apply is_deleted_alive|by apply Hsat].
    + left. split; [by apply HIb|]. intros (Hf & Ho & Hoo). rewrite Hf in Hprev. simpl in Hprev.
      assert (alive a) as Haal. { apply is_deleted_alive. destruct (is_deleted a) eqn:Hd; [|done]. exfalso. assert (false = true) by (apply Hdel; auto). done. }
      by apply (Hnot prev Hf Hprev Ho Haal x Hx Hal).
  - intros pk j bj x; simpl. destruct (decide (pk = d_pubkey a)) as [->|Hpk]; [by rewrite lookup_delete|].
    rewrite lookup_delete_ne by done. intros Hj Hbj Hx Hal. assert (j <> i) as Hne by (intros ->; apply Hpk; by eapply so_inj).
    rewrite list_lookup_insert_ne in Hbj by done. pose proof (HI _ _ _ _ Hj Hbj Hx Hal) as Hin.
    destruct (update_owner_delete_spec F (st_owners st) prev a i c') as (ow2 & del2 & H2 & Hdel & H3 & H4); [exact (entry_pk _ _ _ _ _ _ Hok Hi Hb Hprev)|].
    rewrite Hud in H2. injection H2 as <- <-. by apply H3.
Qed.

Lemma linv_slot F st si c st' out : st_ok st -> st_all D st -> linv st -> process_slot F st si c = Done (st', out) -> linv st'.
Proof.
  intros Hok HD HI H. destruct (process_slot_spec F st si c Hok) as (st1 & sl & wa & H1 & Hph & Hsl & Hse).
  rewrite H1 in H. injection H as <- <-. intros pk i b1 x Hi Hb1 Hx Hal.
  pose proof (index_back _ _ _ _ _ _ _ _ Hok Hse Hi) as Hi0. destruct (so_entry _ _ _ Hok Hi0) as (b & Hb & Hbc & Hall & _).
  destruct (wa !! i) as [s|] eqn:Hw.
  2:{ rewrite (se_same _ _ _ _ _ _ Hse _ Hw) in Hb1. rewrite Hb in Hb1. injection Hb1 as <-.
      apply (se_own _ _ _ _ _ _ Hse); [done|]. by eapply HI. }
  destruct (prom_after F b s c) as [[b' del] rep] eqn:Hp.
  destruct (se_entry _ _ _ _ _ _ Hse _ _ _ _ _ _ Hw Hb Hp) as (Hb' & Hidx & Hown).
  rewrite Hb' in Hb1. injection Hb1 as <-. rewrite (Hidx _ Hi0) in Hi. destruct del; [done|]. apply Hown. unfold own_after.
  assert (b' = (bc_promote b s c).1) as ->.
  { unfold prom_after in Hp. destruct (bc_promote b s c) as [b2 [[a [prev|]]|]]; [destruct (drops F c prev a)|..]; by injection Hp. }
  pose proof (inL_promote _ _ _ _ Hbc Hx) as HxL. pose proof (HI _ _ _ _ Hi0 Hb HxL Hal) as Hin.
  destruct ((bc_promote b s c).2) as [[a [prev|]]|] eqn:Hr; [|done..]. left. split; [done|]. intros (Hf & Ho & Hoo). subst c.
  pose proof Hr as Hr'. apply promote_report_in in Hr as (Hg & Hprev & _). simpl in Hprev.
  assert (bc_fin (bc_promote b s Finalized).1 = Some a) as Hfa.
  { rewrite bc_promote_report in Hr'. simpl in Hr'. rewrite Hg, Hprev in Hr'. rewrite bc_promote_fin. unfold take_over, promoted. rewrite Hg, Hprev. by destruct (d_slot prev <? d_slot a). }
  assert (d_slot prev < d_slot a) as Hlt.
  { rewrite bc_promote_report in Hr'. simpl in Hr'. rewrite Hg, Hprev in Hr'. destruct (N.ltb_spec (d_slot prev) (d_slot a)); [done|done]. }
  assert (alive a) as Haal.
  { apply is_deleted_alive. destruct (is_deleted a) eqn:Hd; [|done]. exfalso. unfold prom_after in Hp. destruct (bc_promote b s Finalized) as [b2 r2]. simpl in Hr'. subst r2.
    destruct (drops F Finalized prev a) eqn:Hdr; [by injection Hp|]. apply not_true_iff_false in Hdr. apply Hdr. apply drops_true. auto. }
  assert (bc_all (fun x => D x /\ d_pubkey x = pk) b) as HDb.
  { destruct (HD i b Hb) as (H2 & H3 & H4). destruct Hall as (H5 & H6 & H7). split_and!; intros; split; eauto. }
  assert (D prev /\ d_pubkey prev = pk) as [HDp Hpkp] by (apply (inL_all _ b prev HDb); by right; left).
  assert (D a /\ d_pubkey a = pk) as [HDa Hpka] by (exact (proj1 HDb _ _ Hg)).
  destruct (inL_all _ b x HDb HxL) as [HDx Hpkx].
  assert (alive prev) as Hpal. { destruct (N.eq_dec (d_lamports prev) 0) as [Hz|]; [|unfold alive; lia]. destruct (HC x prev HDx HDp); [congruence|done|unfold alive; lia|done]. }
  pose proof (inL_fin _ _ _ (bc_ok_promote _ s Finalized Hbc) Hx Hfa) as Hax.
  apply Ho. symmetry. apply (HO prev a x); first [done|congruence|lia].
Qed.
Lemma linv_empty : linv store_empty.
Proof. intros pk i b x Hi. simpl in Hi. by rewrite lookup_empty in Hi. Qed.

Definition linvs (st : store) : Prop := st_ok st /\ st_all D st /\ linv st.
Lemma linvs_upd F st a c st' r : linvs st -> D a -> (alive a -> fl_sat F a = true) -> in_time st a c -> update_account F st a c = Done (st', r) -> linvs st'.
Proof.
  intros (Hok & HD & HI) Ha Hs Ht H. split_and!; [by eapply update_ok|by eapply st_all_upd|by eapply linv_upd].
Qed.
Lemma linvs_load F l : forall st st', linvs st -> (forall a, a ∈ l -> D a /\ (alive a -> fl_sat F a = true)) -> load_in_time F st l -> load_accounts F st l = Done st' -> linvs st'.
Proof.
  induction l as [|a l IH]; simpl; intros st st' Hi Ha Ht; [by intros [= <-]|]. destruct Ht as [Ht Hrest].
  destruct (init_account F st a) as [st1|] eqn:H1; [|done]. simpl. apply IH; [|by intros; apply Ha; right|by apply Hrest].
  unfold init_account in H1. destruct (update_account F st a Finalized) as [[st2 r]|] eqn:H2; [|done]. injection H1 as <-.
  destruct (Ha a) as [Hda Hsa]; [left|]. by eapply linvs_upd.
Qed.
Lemma linvs_step E F st o st' r : linvs st -> (forall a, delivers o a -> D a /\ (alive a -> fl_sat F a = true)) -> op_in_time F st o -> step E F st o = Done (st', r) -> linvs st'.
Proof.
  intros Hi Ha Ht. destruct o as [a c|a|pk c|p fl c|si c|p|p b]; simpl.
  - destruct (update_account F st a c) as [[st1 r1]|] eqn:H1; [|done]. intros [= <- <-]. destruct (Ha a eq_refl). by eapply linvs_upd.
  - destruct (init_account F st a) as [st1|] eqn:H1; [|done]. intros [= <- <-].
    unfold init_account in H1. destruct (update_account F st a Finalized) as [[st2 r2]|] eqn:H2; [|done]. injection H1 as <-. destruct (Ha a eq_refl). by eapply linvs_upd.
  - destruct (get_account st pk c); [|done]. by intros [= <- <-].
  - destruct (get_program_accounts E F st p fl c); [|done]. by intros [= <- <-].
  - destruct (process_slot F st si c) as [[st1 l]|] eqn:H1; [|done]. intros [= <- <-]. destruct Hi as (Hok & HD & HI).
    split_and!; [|by eapply st_all_slot|by eapply linv_slot].
    destruct (process_slot_spec F st si c Hok) as (st2 & sl & wa & H2 & _ & _ & Hse). rewrite H1 in H2. injection H2 as -> _. by apply (se_ok _ _ _ _ _ _ Hse).
  - destruct (create_snapshot E F st p); [|done]. by intros [= <- <-].
  - unfold load_from_snapshot. destruct (unbincode_accounts b) as [l|] eqn:Hl; simpl; [|by intros [= <- <-]].
    destruct (load_accounts F st l) as [st1|] eqn:H1; [|done]. simpl. intros [= <- <-]. eapply linvs_load; [done| |by apply Ht|exact H1].
    intros a Hin. apply Ha. by exists l.
Qed.
Lemma linvs_run E h st : (forall F o a, (F, o) ∈ h -> delivers o a -> D a /\ (alive a -> fl_sat F a = true)) -> run_in_time E h -> run E store_empty h = Done st -> linvs st.
Proof.
  revert st. induction h as [|[F o] h IH] using rev_ind; intros st Ha Ht; simpl.
  - intros [= <-]. split_and!; [apply st_ok_empty| |apply linv_empty]. intros i b. simpl. by rewrite lookup_nil.
  - rewrite run_app. destruct (run E store_empty h) as [st1|] eqn:H1; [|done]. simpl. destruct (step E F st1 o) as [[st2 r]|] eqn:H2; [|done]. simpl. intros [= <-].
    eapply linvs_step; [apply IH; [| |done]| |eapply Ht; [reflexivity|done]|exact H2].
    + intros. eapply Ha; [|done]. apply elem_of_app. by left.
    + intros h1 F1 o1 h2 s1 -> Hs1. eapply (Ht h1 F1 o1 (h2 ++ [(F, o)])); [by rewrite <- app_assoc|done].
    + intros. eapply Ha; [|done]. apply elem_of_app. right. by left.
Qed.
End owners.
