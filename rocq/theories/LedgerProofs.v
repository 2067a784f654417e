(** On an orderly stream the store shows the ledger: the branch and the walk over the slots. *)
From Verif Require Import Base SMap DataModel FilterModel BincodeModel ByCommitModel ByCommitSpec ByCommitProofs
  StoreModel StoreSpec StoreProofs StoreSlot StoreViews StoreHist LedgerSpec.

(** ** Facts about the ledger *)
Record lg_ok (L : ledger) : Prop := LgOk {
  lo_none : lg_root L = None -> lg_parent L = ∅ /\ lg_writes L = [] /\ lg_conf L = None /\ lg_fin L = None;
  lo_root : forall r, lg_root L = Some r -> known L r;
  lo_parent : forall s p, lg_parent L !! s = Some p -> p < s /\ (lg_root L = Some s \/ known L p);
  lo_min : forall s r, known L s -> lg_root L = Some r -> r <= s;
  lo_conf : forall t, lg_conf L = Some t -> known L t;
  lo_fin : forall f, lg_fin L = Some f -> committed L f;
  lo_base : forall a r, a ∈ lg_base L -> lg_root L = Some r -> d_slot a < r;
  lo_writes : forall a, a ∈ lg_writes L -> known L (d_slot a);
}.
Lemma known_root L s : lg_ok L -> known L s -> exists r, lg_root L = Some r.
Proof.
  intros Hok [p Hp]. destruct (lg_root L) as [r|] eqn:Hr; [by exists r|]. destruct (lo_none _ Hok Hr) as (He & _). by rewrite He, lookup_empty in Hp.
Qed.
Lemma known_parent L s p : lg_ok L -> lg_parent L !! s = Some p -> known L p \/ (lg_root L = Some s /\ ~ known L p).
Proof.
  intros Hok Hp. destruct (lo_parent _ Hok _ _ Hp) as [Hlt [Hr|Hk]]; [right|by left]. split; [done|].
  intros Hk. pose proof (lo_min _ Hok _ _ Hk Hr). lia.
Qed.

Definition up (L : ledger) (x y : N) : Prop := lg_parent L !! x = Some y.
Lemma rtc_up_le L t s : lg_ok L -> rtc (up L) t s -> s <= t.
Proof. intros Hok. induction 1 as [|x y z Hxy _ IH]; [lia|]. destruct (lo_parent _ Hok _ _ Hxy). lia. Qed.
Lemma branch_refl L s : known L s -> branch L s s.
Proof. intros Hk. split; [apply rtc_refl|done]. Qed.
Lemma branch_le L t s : lg_ok L -> branch L t s -> s <= t.
Proof. intros Hok [H _]. by eapply rtc_up_le. Qed.
Lemma branch_known L t s : branch L t s -> known L t /\ known L s.
Proof. intros [H Hk]. split; [|done]. inversion H; subst; [done|]. by eexists. Qed.
Lemma branch_trans L a b c : branch L a b -> branch L b c -> branch L a c.
Proof. intros [H1 _] [H2 ?]. split; [by eapply rtc_transitive|done]. Qed.
Lemma branch_up L s p t : lg_parent L !! s = Some p -> branch L p t -> branch L s t.
Proof. intros Hp [H ?]. split; [by eapply rtc_l|done]. Qed.
Lemma branch_inv L s t : branch L s t -> s = t \/ exists p, lg_parent L !! s = Some p /\ branch L p t.
Proof. intros [H Hk]. inversion H; subst; [by left|right]. eexists. split; [done|]. by split. Qed.
Lemma rtc_up_linear L t x y : rtc (up L) t x -> rtc (up L) t y -> rtc (up L) x y \/ rtc (up L) y x.
Proof.
  induction 1 as [|t u x Htu Hux IH]; intros Hy; [by left|]. inversion Hy; subst; [right; by eapply rtc_l|].
  apply IH. unfold up in *. by simplify_eq.
Qed.
Lemma branch_linear L t x y : lg_ok L -> branch L t x -> branch L t y -> y <= x -> branch L x y.
Proof.
  intros Hok [Hx Hkx] [Hy Hky] Hle. destruct (rtc_up_linear L t x y Hx Hy) as [H|H]; [by split|].
  pose proof (rtc_up_le _ _ _ Hok H). assert (x = y) as -> by lia. by apply branch_refl.
Qed.
Lemma committed_branch L s t : committed L s -> branch L s t -> committed L t.
Proof. intros (u & Hu & Hb) Hst. exists u. split; [done|]. by eapply branch_trans. Qed.

(** ** The walk over the slots *)
Lemma walk_keep fuel sl wa s par ip c sl' wa' i t : slot_walk fuel sl wa s par ip c = Some (sl', wa') -> wa !! i = Some t -> wa' !! i = Some t.
Proof.
  revert sl wa s par. induction fuel as [|n IH]; intros sl wa s par; simpl; [done|]. destruct (sl !! s) as [ss|] eqn:Hs.
  - destruct (bool_decide (ss_commit ss = c)); [by intros [= <- <-]|]. intros H Hi.
    assert ((wa ∪ gset_to_gmap s (ss_accounts ss)) !! i = Some t) as Hi' by (by apply lookup_union_Some_l).
    destruct c, (match par with Some _ => par | None => ss_parent ss end) as [p|]; simplify_eq; try done; by eapply IH.
  - destruct c; by intros [= <- <-].
Qed.
Section walk.
Context (L : ledger) (sl0 : gmap N status) (s β q ip : N) (c : commitment).
Hypothesis Hok : lg_ok L.
Hypothesis Hq : lg_parent L !! β = Some q.
Hypothesis Hb : branch L s β.
Hypothesis Hst : forall x, branch L s x -> β <= x -> exists ss, sl0 !! x = Some ss /\ ss_parent ss = lg_parent L !! x.
Hypothesis Hgq : forall ss, sl0 !! q = Some ss -> ss_accounts ss = ∅ /\ (ss_parent ss = None \/ ss_parent ss = Some β \/ ss_parent ss = Some q).
Definition acc_in (i : nat) (t : N) : Prop := exists ss, sl0 !! t = Some ss /\ i ∈ ss_accounts ss.

Lemma branch_step x p : branch L s x -> β < x -> lg_parent L !! x = Some p -> branch L s p /\ β <= p /\
  forall t, branch L s t -> t < x -> t <= p.
Proof.
  intros Hx Hlt Hp.
  assert (forall t, branch L s t -> t < x -> branch L p t) as H.
  { intros t Ht Htx. pose proof (branch_linear _ _ _ _ Hok Hx Ht ltac:(lia)) as [->|(p' & Hp' & Hpt)]%branch_inv; [lia|]. congruence. }
  pose proof (H β Hb Hlt) as Hpb. split; [|split].
  - eapply branch_trans; [exact Hx|]. eapply branch_up; [done|]. apply branch_refl. by apply branch_known in Hpb as [? _].
  - by eapply branch_le.
  - intros t Ht Htx. eapply branch_le; [done|]. by apply H.
Qed.
Lemma walk_first fuel : forall sl wa x par sl' wa',
  branch L s x -> β <= x -> (forall t, t <= x -> sl !! t = sl0 !! t) -> (par = None \/ par = lg_parent L !! x) ->
  slot_walk fuel sl wa x par ip c = Some (sl', wa') ->
  (forall i t, wa' !! i = Some t -> wa !! i = Some t \/
     (branch L s t /\ β <= t /\ t <= x /\ acc_in i t /\ forall t', branch L s t' -> t < t' -> t' <= x -> ~ acc_in i t')) /\
  (forall t, sl !! t = None -> sl' !! t = None \/
     (t = q /\ sl' !! t = Some (Status c ∅ (Some ip)) /\ c <> Finalized /\
      forall y, branch L s y -> β <= y -> y <= x -> exists ss, sl0 !! y = Some ss /\ ss_commit ss <> c)).
Proof.
  induction fuel as [|n IH]; intros sl wa x par sl' wa' Hx Hge Heq Hpar; [done|]. cbn [slot_walk].
  destruct (Hst x Hx Hge) as (ss & Hss & Hps). rewrite (Heq x) by lia. rewrite Hss.
  case_bool_decide as Hc; [intros [= <- <-]; split; by auto|].
  destruct (branch_known _ _ _ Hx) as [_ [p Hp]].
  assert (match par with Some _ => par | None => ss_parent ss end = Some p) as ->.
  { destruct Hpar as [->| ->]; [by rewrite Hps|by rewrite Hp]. }
  destruct (lo_parent _ Hok _ _ Hp) as [Hpx _].
  assert (forall i t, (wa ∪ gset_to_gmap x (ss_accounts ss)) !! i = Some t -> wa !! i = Some t \/
     (branch L s t /\ β <= t /\ t <= x /\ acc_in i t /\ forall t', branch L s t' -> t < t' -> t' <= x -> ~ acc_in i t')) as H1.
  { intros i t Ht. apply lookup_union_Some_raw in Ht as [Ht|[Hn Ht]]; [by left|right]. apply lookup_gset_to_gmap_Some in Ht as [Ht <-].
    split; [done|]. split; [done|]. split; [lia|]. split; [by exists ss|]. intros t' _ ? ?. lia. }
  assert (c = Processed \/ c <> Processed) as [->|Hcp]; [destruct c; auto..| |].
  { intros [= <- <-]. split; [done|]. intros t Ht. left. rewrite lookup_insert_ne; [done|]. intros <-. rewrite (Heq x) in Ht by lia. congruence. }
  intros H. assert (slot_walk n (<[x := Status c (ss_accounts ss) (Some p)]> sl) (wa ∪ gset_to_gmap x (ss_accounts ss)) p None ip c = Some (sl', wa')) as Hw
    by (destruct c; done). clear H.
  assert (forall t, sl !! t = None -> <[x := Status c (ss_accounts ss) (Some p)]> sl !! t = None) as Hnone.
  { intros t Ht. rewrite lookup_insert_ne; [done|]. intros <-. rewrite (Heq x) in Ht by lia. congruence. }
  destruct (decide (x = β)) as [->|Hne].
  - assert (p = q) as -> by congruence. destruct n as [|n]; [done|]. cbn [slot_walk] in Hw. rewrite lookup_insert_ne in Hw by lia. rewrite (Heq q) in Hw by lia.
    destruct (sl0 !! q) as [sq|] eqn:Hsq.
    + destruct (Hgq sq eq_refl) as [Hacc Hpq]. case_bool_decide as Hcq.
      { injection Hw as <- <-. split; [done|]. intros t Ht. left. by apply Hnone. }
      rewrite Hacc in Hw. rewrite gset_to_gmap_empty in Hw. rewrite (right_id_L ∅ (∪)) in Hw.
      assert (sl' = <[q := Status c ∅ (ss_parent sq)]> (<[β := Status c (ss_accounts ss) (Some q)]> sl) /\ wa' = wa ∪ gset_to_gmap β (ss_accounts ss)) as [-> ->].
      { destruct (ss_parent sq) as [pq|] eqn:Hpp; [|by destruct c; simplify_eq].
        assert (slot_walk n (<[q := Status c ∅ (Some pq)]> (<[β := Status c (ss_accounts ss) (Some q)]> sl)) (wa ∪ gset_to_gmap β (ss_accounts ss)) pq None ip c = Some (sl', wa')) as Hw' by (destruct c; done).
        clear Hw. destruct n as [|n]; [done|]. cbn [slot_walk] in Hw'.
        assert (exists sx, <[q := Status c ∅ (Some pq)]> (<[β := Status c (ss_accounts ss) (Some q)]> sl) !! pq = Some sx /\ ss_commit sx = c) as (sx & Hsx & Hcx).
        { destruct Hpq as [?|[[= ->]|[= ->]]]; [done|rewrite lookup_insert_ne, lookup_insert by lia; eauto|rewrite lookup_insert; eauto]. }
        rewrite Hsx in Hw'. rewrite bool_decide_true in Hw' by done. by injection Hw' as <- <-. }
      split; [done|]. intros t Ht. left. rewrite lookup_insert_ne; [by apply Hnone|]. intros <-. rewrite (Heq q) in Ht by lia. congruence.
    + destruct c; [done| |injection Hw as <- <-; split; [done|]; intros t Ht; left; by apply Hnone].
      injection Hw as <- <-. split; [done|]. intros t Ht. destruct (decide (t = q)) as [->|Hnq]; [|left; rewrite lookup_insert_ne by done; by apply Hnone].
      right. split; [done|]. split; [by rewrite lookup_insert|]. split; [done|]. intros y Hy Hy1 Hy2. assert (y = β) as -> by lia. eauto.
  - destruct (branch_step x p Hx ltac:(lia) Hp) as (Hbp & Hgp & Hnext).
    destruct (IH (<[x := Status c (ss_accounts ss) (Some p)]> sl) (wa ∪ gset_to_gmap x (ss_accounts ss)) p None sl' wa' Hbp Hgp) as [H2 H3]; [|by left|exact Hw|].
    { intros t Ht. rewrite lookup_insert_ne by lia. apply Heq. lia. }
    split.
    + intros i t Ht. destruct ((wa ∪ gset_to_gmap x (ss_accounts ss)) !! i) as [t1|] eqn:Ht1.
      { pose proof (walk_keep _ _ _ _ _ _ _ _ _ i t1 Hw Ht1) as Ht2. rewrite Ht in Ht2. injection Ht2 as <-. by apply H1. }
      destruct (H2 i t Ht) as [?|(Hbt & Hbt1 & Hbt2 & Hacc & Hall)]; [congruence|right]. split; [done|]. split; [done|]. split; [lia|]. split; [done|].
      intros t' Ht' Hlt Hle (ss' & Hss' & Hi'). destruct (decide (t' = x)) as [->|Hnx].
      * rewrite Hss in Hss'. injection Hss' as <-. apply lookup_union_None in Ht1 as [_ Ht1]. apply lookup_gset_to_gmap_None in Ht1. done.
      * apply (Hall t' Ht' Hlt); [apply Hnext; [done|lia]|by exists ss'].
    + intros t Ht. destruct (H3 t (Hnone t Ht)) as [?|(-> & ? & ? & Hall)]; [by left|right]. split; [done|]. split; [done|]. split; [done|].
      intros y Hy Hy1 Hy2. destruct (decide (y = x)) as [->|Hnx]; [eauto|]. apply Hall; [done..|apply Hnext; [done|lia]].
Qed.

(** The slots reached from the announced slot [s]. *)
Context (si : slot_info).
Hypothesis Hsi : si_slot si = s.
Hypothesis Hsp : lg_parent L !! s = Some (si_parent si).
Lemma parent_of_branch x : branch L s x -> β <= x -> parent_of sl0 si x = lg_parent L !! x.
Proof.
  intros Hx Hge. unfold parent_of. rewrite Hsi. destruct (N.eqb_spec x s) as [->|_]; [done|].
  destruct (Hst x Hx Hge) as (ss & -> & Hp). done.
Qed.
Lemma chain_in t : on_chain sl0 si c t -> (branch L s t /\ β <= t) \/ t = q.
Proof.
  assert (q < β) as Hqb by (destruct (lo_parent _ Hok _ _ Hq); lia). pose proof (branch_le _ _ _ Hok Hb) as Hbs.
  induction 1 as [ss Hs Hc|x p ss Hch IH Hc Hp Hs Hcm].
  - left. rewrite Hsi. split; [|done]. apply branch_refl. by apply branch_known in Hb as [? _].
  - destruct IH as [[Hx Hge]| ->].
    + rewrite parent_of_branch in Hp by done. destruct (decide (x = β)) as [->|Hne]; [right; congruence|].
      left. destruct (branch_step x p Hx ltac:(lia) Hp) as (? & ? & _). done.
    + unfold parent_of in Hp. rewrite Hsi in Hp. destruct (N.eqb_spec q s) as [->|_]; [lia|].
      destruct (sl0 !! q) as [sq|] eqn:Hsq; [|done]. simpl in Hp. destruct (Hgq sq eq_refl) as [_ [?|[?|?]]]; [congruence| |right; congruence].
      left. assert (p = β) as -> by congruence. split; [done|lia].
Qed.
Lemma chain_commit t : on_chain sl0 si c t -> exists ss, sl0 !! t = Some ss /\ ss_commit ss <> c.
Proof. destruct 1; eauto. Qed.
Lemma chain_all t : c <> Processed -> branch L s t -> β <= t -> (forall x ss, branch L s x -> t <= x -> sl0 !! x = Some ss -> ss_commit ss <> c) -> on_chain sl0 si c t.
Proof.
  intros Hc [Ht Hkt] Hge Hall. revert Hkt Hge Hall.
  refine (rtc_ind_r (fun t => known L t -> β <= t -> (forall x ss, branch L s x -> t <= x -> sl0 !! x = Some ss -> ss_commit ss <> c) -> on_chain sl0 si c t) s _ _ t Ht);
    clear t Ht; [intros Hk Hge Hall|intros t p Hst' Htp IH Hk Hge Hall].
  - destruct (Hst s) as (ss & Hss & _); [by apply branch_refl|done|]. rewrite <- Hsi. apply (chain_start _ _ _ ss); [by rewrite Hsi|].
    eapply Hall; [by apply branch_refl| |done]. lia.
  - assert (known L t) as Hkt by (by eexists). assert (p < t) as Hlt by (by destruct (lo_parent _ Hok _ _ Htp)).
    destruct (Hst p) as (ss & Hss & _); [split; [|done]; by eapply rtc_r|done|].
    eapply (chain_up _ _ _ t p ss); [apply IH; [done|lia|]|done| |done|].
    + intros x sx Hx Hle. eapply Hall; [done|lia].
    + rewrite parent_of_branch; [done|by split|lia].
    + eapply Hall; [| |done]; [split; [by eapply rtc_r|done]|lia].
Qed.
End walk.
