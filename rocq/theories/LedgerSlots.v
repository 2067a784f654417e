(** On an orderly stream the store shows the ledger: confirming and finalizing slots keep the invariant. *)
From Verif Require Import Base SMap DataModel FilterModel BincodeModel ByCommitModel ByCommitSpec ByCommitProofs
  StoreModel StoreSpec StoreProofs StoreSlot StoreViews StoreHist LedgerSpec LedgerProofs LedgerInv LedgerSteps.

Global Instance acc_in_dec sl i t : Decision (acc_in sl i t).
Proof.
  destruct (sl !! t) as [ss|] eqn:Hs; [destruct (decide (i ∈ ss_accounts ss)) as [Hi|Hi]; [left; by exists ss|]|]; right; intros (s' & Hs' & Hi'); congruence.
Defined.

Lemma opt_case {A} (o : option A) : (exists x, o = Some x) \/ o = None.
Proof. destruct o; eauto. Qed.

Section phase.
Context (L : ledger) (sl : gmap N status) (si : slot_info) (c : commitment) (β q : N).
Hypothesis Hok : lg_ok L.
Hypothesis Hsv : slot_inv L sl.
Hypothesis Hβ : bottom L = Some β.
Hypothesis Hq : lg_parent L !! β = Some q.
Hypothesis Hb : branch L (si_slot si) β.
Hypothesis Hsp : lg_parent L !! si_slot si = Some (si_parent si).
Hypothesis Hc : c <> Processed.
Lemma ph_st x : branch L (si_slot si) x -> β <= x -> exists ss, sl !! x = Some ss /\ ss_parent ss = lg_parent L !! x.
Proof. intros Hx Hge. destruct (sv_known _ _ Hsv β x Hβ) as (ss & ? & ? & _); [by apply branch_known in Hx as [_ ?]|done|eauto]. Qed.
Lemma ph_q ss : sl !! q = Some ss -> ss_accounts ss = ∅ /\ (ss_parent ss = None \/ ss_parent ss = Some β \/ ss_parent ss = Some q).
Proof. by apply (sv_q _ _ Hsv β q ss). Qed.
Lemma ph_low : q < β /\ β <= si_slot si.
Proof. split; [by destruct (lo_parent _ Hok _ _ Hq)|by eapply branch_le]. Qed.
Lemma ph_chain t : on_chain sl si c t -> (branch L (si_slot si) t /\ β <= t) \/ t = q.
Proof. by apply (chain_in L sl (si_slot si) β q 0 c Hok Hq Hb ph_st ph_q si). Qed.
Lemma ph_all t : branch L (si_slot si) t -> β <= t -> (forall x ss, branch L (si_slot si) x -> t <= x -> sl !! x = Some ss -> ss_commit ss <> c) -> on_chain sl si c t.
Proof. intros. by apply (chain_all L sl (si_slot si) β q 0 c Hok ph_st ph_q si). Qed.
Lemma ph_phase sl' wa : slot_phase sl si c = Some (sl', wa) ->
  (forall i t, wa !! i = Some t -> on_chain sl si c t /\ branch L (si_slot si) t /\ β <= t /\ acc_in sl i t /\
     forall t', branch L (si_slot si) t' -> t < t' -> ~ acc_in sl i t') /\
  (forall t, sl !! t = None -> sl' !! t = None \/
     (t = q /\ sl' !! t = Some (Status c ∅ (Some (si_parent si))) /\
      forall y, branch L (si_slot si) y -> β <= y -> exists ss, sl !! y = Some ss /\ ss_commit ss <> c)).
Proof.
  intros Hph. destruct (slot_phase_spec _ _ _ _ _ Hph) as (Hwa & _ & _ & _ & Hpr). unfold slot_phase in Hph.
  destruct (slot_walk _ _ _ _ _ _ _) as [[sl1 wa1]|] eqn:Hw; [|done]. injection Hph as <- <-.
  destruct (walk_first L sl (si_slot si) β q (si_parent si) c Hok Hq Hb ph_st ph_q _ _ _ _ _ _ _ ltac:(apply branch_refl; by eexists)
    (proj2 ph_low) ltac:(done) ltac:(right; done) Hw) as [H1 H2]. split.
  - intros i t Ht. destruct (Hwa i t Ht) as [Hch _]. destruct (H1 i t Ht) as [?|(Hbt & Hge & Hle & Hacc & Hmax)]; [by rewrite lookup_empty in *|].
    split_and!; try done. intros t' Ht' Hlt. apply Hmax; [done..|by eapply branch_le].
  - intros t Ht. destruct (H2 t Ht) as [Hn|(-> & Hs & Hcf & Hall)].
    + left. destruct c; try done. unfold prune_slots. apply map_filter_lookup_None. by left.
    + right. destruct c; try done. split_and!; try done. intros y Hy Hge. apply Hall; [done..|by eapply branch_le].
Qed.
End phase.

Section confirm.
Context (L : ledger) (si : slot_info).
Let s := si_slot si.
Let L' := Ledger (lg_base L) (lg_root L) (lg_parent L) (lg_writes L) (Some s) (lg_fin L).
Hypothesis Hok : lg_ok L.
Hypothesis Hsp : lg_parent L !! s = Some (si_parent si).
Hypothesis Hcf : match lg_conf L with None => lg_root L = Some s | Some t => branch L (si_parent si) t /\ (si_parent si = t \/ lg_fin L <> Some t) end.
Lemma cf_known : known L s.
Proof. by eexists. Qed.
Lemma cf_tip t : lg_conf L = Some t -> branch L s t /\ t < s.
Proof.
  intros Ht. rewrite Ht in Hcf. destruct Hcf as [Hb _]. split; [by eapply branch_up|]. pose proof (branch_le _ _ _ Hok Hb).
  destruct (lo_parent _ Hok _ _ Hsp). lia.
Qed.
(** The slots that get confirmed. *)
Definition cf_new (x : N) : Prop := branch L s x /\ forall t, lg_conf L = Some t -> t < x.
Lemma cf_split x : branch L s x -> cf_new x \/ committed L x.
Proof.
  intros Hx. destruct (opt_case (lg_conf L)) as [[t Ht]|Ht]; [|left; split; [done|]; congruence].
  destruct (decide (t < x)) as [Hlt|Hge].
  - left. split; [done|]. intros t' Ht'. assert (t' = t) as -> by congruence. done.
  - right. exists t. split; [done|]. eapply branch_linear; [done|by apply cf_tip|done|lia].
Qed.
Lemma cf_new_open x : cf_new x -> ~ committed L x.
Proof. intros [_ Hn] (t & Ht & Hb). specialize (Hn t Ht). pose proof (branch_le _ _ _ Hok Hb). lia. Qed.
Lemma cf_committed x : committed L' x <-> cf_new x \/ committed L x.
Proof.
  split.
  - intros (t & [= <-] & Hx). by apply cf_split.
  - intros [[Hx _]|(t & Ht & Hx)]; exists s; (split; [done|]); [exact Hx|]. change (branch L s x). eapply branch_trans; [by apply cf_tip|done].
Qed.
Lemma cf_self : cf_new s.
Proof. split; [apply branch_refl, cf_known|]. intros t Ht. by apply cf_tip. Qed.
Lemma cf_branch β : bottom L = Some β -> branch L s β.
Proof.
  unfold bottom. destruct (opt_case (lg_fin L)) as [[f Hf]|Hf]; rewrite Hf.
  - intros [= <-]. destruct (lo_fin _ Hok _ Hf) as (t & Ht & Hb). eapply branch_trans; [by apply cf_tip|done].
  - intros Hr. apply branch_root; [done|apply cf_known|done].
Qed.
Lemma cf_new_ge β x : bottom L = Some β -> cf_new x -> β <= x.
Proof.
  intros Hβ [Hx Hn]. unfold bottom in Hβ. destruct (opt_case (lg_fin L)) as [[f Hf]|Hf]; rewrite Hf in Hβ.
  - injection Hβ as <-. destruct (lo_fin _ Hok _ Hf) as (t & Ht & Hb). specialize (Hn t Ht). pose proof (branch_le _ _ _ Hok Hb). lia.
  - destruct (branch_known _ _ _ Hx) as [_ Hk]. by apply (lo_min _ Hok).
Qed.
Lemma cf_chain sl β q x : slot_inv L sl -> bottom L = Some β -> lg_parent L !! β = Some q -> cf_new x -> on_chain sl si Confirmed x.
Proof.
  intros Hsv Hβ Hq Hx. apply (ph_all L sl si Confirmed β q Hok Hsv Hβ Hq Hsp); [done|apply Hx|by apply cf_new_ge|]. intros y ss Hy Hle Hss.
  assert (cf_new y) as Hny. { split; [done|]. intros t Ht. destruct Hx as [_ Hx]. specialize (Hx t Ht). lia. }
  rewrite (sv_open _ _ Hsv y ss); [done|by apply branch_known in Hy as [_ ?]|by apply cf_new_open|done].
Qed.
Lemma cf_slots sl sl' wa : slot_inv L sl -> slot_phase sl si Confirmed = Some (sl', wa) -> slot_inv L' sl'.
Proof.
  intros Hsv Hph. destruct (bottom_some L s Hok cf_known) as (β & q & Hβ & Hq & Hqb). pose proof (cf_branch β Hβ) as Hb.
  destruct (ph_phase L sl si Confirmed β q Hok Hsv Hβ Hq Hb Hsp ltac:(done) sl' wa Hph) as [_ Hnew].
  pose proof (ph_chain L sl si Confirmed β q Hok Hsv Hβ Hq Hb Hsp) as Hch.
  destruct (slot_phase_spec _ _ _ _ _ Hph) as (_ & _ & _ & Hsl & _).
  assert (forall t, (on_chain sl si Confirmed t /\ exists ss, sl !! t = Some ss /\ sl' !! t = Some (Status Confirmed (ss_accounts ss) (parent_of sl si t))) \/
    (~ on_chain sl si Confirmed t /\ (sl' !! t = sl !! t \/ (sl !! t = None /\ sl' !! t = Some (Status Confirmed ∅ (Some (si_parent si))))))) as Hcase.
  { intros t. destruct (Hsl t) as [?|[? [?|(? & _ & ?)]]]; [by left|auto..]. }
  clear Hsl. destruct (known_root _ _ Hok cf_known) as [r Hr]. pose proof Hsv as [V1 V2 V3 V4 V5].
  assert (forall t, on_chain sl si Confirmed t -> known L t -> committed L' t) as Hcc.
  { intros t Ht Hk. destruct (Hch t Ht) as [[Hbt _]| ->]; [exists s; split; [done|exact Hbt]|]. apply cf_committed. right. by apply (bottom_parent L β q). }
  assert (forall t, sl !! t = None -> is_Some (sl' !! t) -> t = q /\ sl' !! t = Some (Status Confirmed ∅ (Some (si_parent si))) /\ (si_parent si = β \/ si_parent si = q)) as Hins.
  { intros t Ht [x Hx]. destruct (Hnew t Ht) as [?|(-> & Hs' & Hall)]; [congruence|]. split; [done|]. split; [done|].
    destruct (decide (s = β)) as [<-|Hne]; [right; congruence|]. left.
    destruct (opt_case (lg_conf L)) as [[t Ht']|Ht'].
    - assert (β <= t) as Hge.
      { unfold bottom in Hβ. destruct (opt_case (lg_fin L)) as [[f Hf]|Hf]; rewrite Hf in Hβ; [|apply (lo_min _ Hok); [by apply (lo_conf _ Hok)|done]].
        injection Hβ as <-. destruct (lo_fin _ Hok _ Hf) as (t' & Ht2 & Hbt). assert (t' = t) as -> by congruence. by eapply branch_le. }
      destruct (Hall t ltac:(by apply cf_tip) Hge) as (ss & Hss & Hcm). destruct (V4 β _ Hβ (lo_conf _ Hok _ Ht') Hge) as (ss2 & Hss2 & _ & Hc2).
      rewrite Hss in Hss2. injection Hss2 as <-. destruct Hc2 as [_ Hc2]; [eexists; split; [done|]; apply branch_refl; by apply (lo_conf _ Hok)|].
      destruct (decide (lg_fin L = Some t)) as [Hf|Hf]; [|by destruct Hcm; apply Hc2]. unfold bottom in Hβ. rewrite Hf in Hβ. injection Hβ as <-.
      rewrite Ht' in Hcf. by destruct Hcf as [_ [?|?]].
    - rewrite Ht' in Hcf. unfold bottom in Hβ. destruct (lg_fin L) as [f|] eqn:Hf; [destruct (lo_fin _ Hok _ Hf) as (? & ? & _)|]; congruence. }
  constructor.
  - simpl. congruence.
  - intros r' x Hr' [ss' Hx]. change (known L x \/ x < r'). simpl in Hr'. destruct (sl !! x) as [ss|] eqn:Hss; [apply (V2 r' x Hr'); by eexists|].
    destruct (Hins x Hss) as [-> _]; [by eexists|]. destruct (known_parent _ _ _ Hok Hq) as [?|[? _]]; [by left|right]. congruence.
  - intros β' q' sq Hβ' Hq' Hsq. change (bottom L = Some β') in Hβ'. change (lg_parent L !! β' = Some q') in Hq'. rewrite Hβ in Hβ'. injection Hβ' as <-.
    rewrite Hq in Hq'. injection Hq' as <-. assert (q <> s) as Hqs by (pose proof (branch_le _ _ _ Hok Hb); lia).
    destruct (Hcase q) as [(_ & ss & Hss & Hs')|(_ & [He|[Hn Hs']])].
    + rewrite Hs' in Hsq. injection Hsq as <-. simpl. destruct (V3 β q ss Hβ Hq Hss) as [? ?]. split; [done|]. unfold parent_of.
      destruct (N.eqb_spec q (si_slot si)); [done|]. by rewrite Hss.
    + rewrite He in Hsq. by apply (V3 β q sq).
    + destruct (Hins q Hn) as (_ & Hq2 & Hor); [by eexists|]. rewrite Hq2 in Hsq. injection Hsq as <-. simpl. split; [done|]. destruct Hor as [->| ->]; auto.
  - intros β' x Hβ' Hx Hge. change (bottom L = Some β') in Hβ'. rewrite Hβ in Hβ'. injection Hβ' as <-. change (known L x) in Hx.
    destruct (V4 β x Hβ Hx Hge) as (ss & Hss & Hp & Hcm). destruct (Hcase x) as [(_ & ss2 & Hss2 & Hs')|(Hnch & [He|[Hn _]])]; [| |congruence].
    + rewrite Hss in Hss2. injection Hss2 as <-. exists (Status Confirmed (ss_accounts ss) (parent_of sl si x)). split; [done|]. split; [|done].
      simpl. unfold parent_of. destruct (N.eqb_spec x (si_slot si)) as [->|_]; [done|]. by rewrite Hss.
    + exists ss. rewrite He. split; [done|]. split; [done|]. intros [Hc|Hc]%cf_committed; [|auto]. by destruct Hnch; apply (cf_chain sl β q).
  - intros x ss Hx Hnc Hss. change (known L x) in Hx. destruct (Hcase x) as [(Hxc & _)|(_ & [He|[Hn Hs']])].
    + by destruct Hnc; apply Hcc.
    + rewrite He in Hss. apply (V5 x); [done| |done]. intros Hc. apply Hnc, cf_committed. by right.
    + destruct (Hins x Hn) as [-> _]; [by eexists|]. destruct Hnc. apply cf_committed. right. by apply (bottom_parent L β q).
Qed.
End confirm.

(** Promotion of a version that already counts changes nothing. *)
Lemma take_over_old (P : acct -> Prop) b t o : latest P o -> (forall a, sm_get t (bc_proc b) = Some a -> P a) -> take_over b t o = o.
Proof.
  intros Ho H. unfold take_over. destruct (sm_get t (bc_proc b)) as [a|] eqn:Ha; [|done]. specialize (H a eq_refl). destruct o as [x|]; [|by destruct (Ho a)].
  destruct Ho as [_ Ho]. unfold promoted. destruct (N.ltb_spec (d_slot x) (d_slot a)); [|done]. destruct (Ho a H) as [?|[? _]]; lia.
Qed.
(** Promotion of the newest version of a slot that is above all that counted before. *)
Lemma take_over_new (P Q M : acct -> Prop) b t o a : latest P o -> latest M (sm_get t (bc_proc b)) -> M a -> (forall x, P x -> d_slot x < t) ->
  (forall x, M x -> d_slot x = t /\ Q x) -> (forall x, Q x -> d_slot x < t \/ M x) -> latest Q (take_over b t o).
Proof.
  intros Ho HM Ha HP HMQ HQ. unfold take_over. destruct (sm_get t (bc_proc b)) as [y|]; [|by destruct (HM a)]. destruct HM as [Hy HM]. destruct (HMQ y Hy) as [Hys HyQ].
  assert (promoted o y = Some y) as ->.
  { unfold promoted. destruct o as [x|]; [|done]. destruct Ho as [Hx _]. specialize (HP x Hx). destruct (N.ltb_spec (d_slot x) (d_slot y)); [done|lia]. }
  split; [done|]. intros x Hx. destruct (HQ x Hx) as [Hlt|Hm]; [left; lia|by apply HM].
Qed.
(** A step over the slots when nothing of the account is dropped. *)
Lemma slot_keep F st si c wa st' pk i b : st_ok st -> slot_effect F st si c wa st' -> st_index st !! pk = Some i -> st_accounts st !! i = Some b ->
  (c = Finalized -> forall t x y, wa !! i = Some t -> (bc_promote b t c).2 = Some (y, Some x) -> drops F c x y = false) ->
  st_index st' !! pk = Some i /\ st_accounts st' !! i = Some (match wa !! i with None => b | Some t => (bc_promote b t c).1 end).
Proof.
  intros Hok Hse Hi Hb Hd. pose proof (slot_version F st si c wa st' pk i b Hok Hse Hi Hb) as H. destruct (wa !! i) as [t|]; [|done].
  destruct (prom_after F b t c) as [[b' del] rep] eqn:Hp. destruct del.
  - destruct (prom_after_drop _ _ _ _ _ _ Hp) as (_ & a & prev & Hr & _ & Hdr). pose proof (proj1 (drops_true _ _ _ _) Hdr) as [-> _].
    rewrite (Hd eq_refl t prev a) in Hdr; done.
  - destruct (prom_after_keep _ _ _ _ _ _ Hp) as [-> _]. done.
Qed.
Lemma slot_acc sl si c sl' wa t ss : slot_phase sl si c = Some (sl', wa) -> (c <> Finalized \/ si_slot si <= t) -> sl !! t = Some ss ->
  exists ss', sl' !! t = Some ss' /\ ss_accounts ss' = ss_accounts ss.
Proof.
  intros Hph Hc Hss. destruct (slot_phase_spec _ _ _ _ _ Hph) as (_ & _ & _ & Hsl & _). destruct (Hsl t Hc) as [(_ & ss2 & Hss2 & ->)|(_ & [->|(? & _)])].
  - rewrite Hss in Hss2. injection Hss2 as <-. by eexists.
  - eauto.
  - congruence.
Qed.

Lemma confirm_step m pk L st si F st' out : lg_ok L -> st_ok st -> slot_inv L (st_slots st) -> pk_inv pk m L st ->
  lg_parent L !! si_slot si = Some (si_parent si) ->
  match lg_conf L with None => lg_root L = Some (si_slot si) | Some t => branch L (si_parent si) t /\ (si_parent si = t \/ lg_fin L <> Some t) end ->
  process_slot F st si Confirmed = Done (st', out) ->
  let L' := Ledger (lg_base L) (lg_root L) (lg_parent L) (lg_writes L) (Some (si_slot si)) (lg_fin L) in
  slot_inv L' (st_slots st') /\ pk_inv pk m L' st'.
Proof.
  intros Hok Hst Hsv Hpk Hsp Hcf Hp L'. set (s := si_slot si) in *.
  destruct (process_slot_spec F st si Confirmed Hst) as (st1 & sl & wa & H1 & Hph & Hsl & Hse). rewrite H1 in Hp. injection Hp as <- <-.
  rewrite Hsl. split; [by eapply (cf_slots L si)|]. unfold pk_inv in *. destruct (st_index st !! pk) as [i|] eqn:Hi; [|rewrite (se_none _ _ _ _ _ _ Hse pk Hi); by apply (gone_mono pk m L)].
  destruct Hpk as (b & Hb & [I1 I2 I3 I4 I5 I6]).
  destruct (slot_keep F st si Confirmed wa st1 pk i b Hst Hse Hi Hb) as [Hi' Hb']; [done|]. rewrite Hi'. eexists. split; [exact Hb'|].
  pose proof (so_bc _ Hst _ _ Hb) as Hbc. destruct (so_pk _ Hst _ _ _ Hi Hb) as [Hbpk Hne]. rewrite Hsl.
  assert (known L s) as Hks by by eexists.
  destruct (bottom_some L s Hok Hks) as (β & q & Hβ & Hq & Hqb). pose proof (cf_branch L si Hok Hsp Hcf β Hβ) as Hbr.
  destruct (ph_phase (L) (st_slots st) si Confirmed β q Hok Hsv Hβ Hq Hbr Hsp ltac:(done) sl wa Hph) as [Hwa _].
  assert (forall t, branch L s t -> β <= t -> acc_in (st_slots st) i t <-> exists a, mine pk L t a) as Hacc.
  { intros t Ht Hge. destruct (branch_known _ _ _ Ht) as [_ Hkt]. destruct (sv_known _ _ Hsv β t Hβ Hkt Hge) as (ss & Hss & _). rewrite <- (I6 t β ss Hβ Hge Hkt Hss).
    split; [intros (ss2 & Hss2 & ?); congruence|by exists ss]. }
  assert (forall x, counts L' Confirmed x <-> counts L Confirmed x \/ (x ∈ lg_writes L /\ cf_new L si (d_slot x))) as Hcnt.
  { intros x. pose proof (cf_committed L si Hok Hsp Hcf (d_slot x)) as [Hc1 Hc2]. unfold counts. split.
    - intros [Hx|[Hx Hm]]; [by left; left|]. destruct (Hc1 Hm) as [?|?]; [by right|left; by right].
    - intros [[Hx|[Hx Hm]]|[Hx Hm]]; [by left|right; split; [done|]; apply Hc2; by right|right; split; [done|]; apply Hc2; by left]. }
  assert (forall t, cf_new L si t -> acc_in (st_slots st) i t -> exists t', wa !! i = Some t' /\ t <= t') as Hhit.
  { intros t Ht Hin. destruct (slot_phase_spec _ _ _ _ _ Hph) as (_ & Hall & _).
    pose proof (cf_chain L si Hok Hsp (st_slots st) β q t Hsv Hβ Hq Ht) as Hct. destruct Hin as (ss & Hss & Hin').
    destruct (Hall i t ss Hct Hss Hin') as [t' Ht']. exists t'. split; [done|]. destruct (Hwa i t' Ht') as (_ & _ & _ & _ & Hmax).
    destruct (decide (t <= t')) as [|Hgt]; [done|]. destruct (Hmax t); [apply Ht|lia|by exists ss]. }
  assert (forall t, committed L t -> forall x, sm_get t (bc_proc b) = Some x -> counts L Confirmed x /\ d_pubkey x = pk) as Hcold.
  { intros t Ht x Hx. destruct I1 as (B1 & _). destruct Hbpk as (B2 & _). split; [|by eapply B2]. destruct (B1 _ _ Hx) as [?|?]; [by left|right]. split; [done|].
    by rewrite (ok_key _ Hbc _ _ Hx). }
  assert (in_ledger L' pk Confirmed (bc_conf (match wa !! i with None => b | Some t => (bc_promote b t Confirmed).1 end))) as Hconf.
  { destruct (wa !! i) as [t|] eqn:Ht.
    - destruct (Hwa i t Ht) as (_ & Hbt & Hge & Hin & Hmax). rewrite bc_promote_conf. destruct (branch_known _ _ _ Hbt) as [_ Hkt].
      destruct (cf_split L si Hok Hsp Hcf t Hbt) as [Hnt|Hct].
      + assert (forall x, counts L Confirmed x -> d_slot x < t) as Hlow.
        { intros x [Hx|(_ & f & Hff & Hbx)].
          - destruct (known_root _ _ Hok Hks) as [r Hr]. pose proof (lo_base _ Hok _ _ Hx Hr). pose proof (lo_min _ Hok _ _ Hkt Hr). lia.
          - pose proof (branch_le _ _ _ Hok Hbx). destruct Hnt as [_ Hnt]. specialize (Hnt f Hff). lia. }
        apply Hacc in Hin as [a Ha]; [|done..].
        eapply (take_over_new (fun x => counts L Confirmed x /\ d_pubkey x = pk) _ (mine pk L t) b t (bc_conf b) a I2); [|done|..].
        * apply I5; [done|]. intros f Hf. destruct (lo_fin _ Hok _ Hf) as (u & Hu & Hbu). pose proof (branch_le _ _ _ Hok Hbu). destruct Hnt as [_ Hnt]. specialize (Hnt u Hu). lia.
        * intros x [Hx _]. by apply Hlow.
        * intros x (Hx & Ex & Hxs). split; [done|]. split; [|done]. apply Hcnt. right. by rewrite Hxs.
        * intros x [[Hx|(Hx & Hnx)]%Hcnt Ex]; [left; by apply Hlow|].
          destruct (decide (d_slot x = t)) as [Heq|Hneq]; [by right|left]. destruct (decide (d_slot x < t)) as [|Hgt]; [done|].
          destruct (Hmax (d_slot x) (proj1 Hnx) ltac:(lia)). apply Hacc; [apply Hnx|by eapply cf_new_ge|]. by exists x.
      + rewrite (take_over_old (fun x => counts L Confirmed x /\ d_pubkey x = pk)); [|exact I2|by apply Hcold].
        eapply in_ledger_ext; [|exact I2]. intros x Ex. rewrite Hcnt. split; [by left|]. intros [?|(Hx & Hnx)]; [done|].
        destruct Hct as (u & Hu & Hbu). pose proof (branch_le _ _ _ Hok Hbu). pose proof (proj2 Hnx u Hu).
        destruct (Hmax (d_slot x) (proj1 Hnx) ltac:(lia)). apply Hacc; [apply Hnx|by eapply cf_new_ge|]. by exists x.
    - eapply in_ledger_ext; [|exact I2]. intros x Ex. rewrite Hcnt. split; [by left|]. intros [?|(Hx & Hnx)]; [done|].
      destruct (Hhit (d_slot x) Hnx) as (t' & Ht' & _); [|congruence]. apply Hacc; [apply Hnx|by eapply cf_new_ge|]. by exists x. }
  assert (bc_proc (match wa !! i with None => b | Some t => (bc_promote b t Confirmed).1 end) = bc_proc b) as Hproc.
  { destruct (wa !! i); [by rewrite bc_promote_proc|done]. }
  constructor.
  - destruct (wa !! i); [by apply bc_all_promote|done].
  - done.
  - assert (bc_fin (match wa !! i with None => b | Some t => (bc_promote b t Confirmed).1 end) = bc_fin b) as ->.
    { destruct (wa !! i); [by rewrite bc_promote_fin|done]. } exact I3.
  - simpl in *. rewrite Hproc. destruct (sm_last_nonempty _ Hne) as (k & p & Hl). rewrite Hl in *. exact I4.
  - intros t Ht Hf. rewrite Hproc. by apply I5.
  - intros t β' ss Hβ' Hge Ht Hss. change (bottom L = Some β') in Hβ'. change (known L t) in Ht. destruct (sv_known _ _ Hsv β' t Hβ' Ht Hge) as (s0 & Hs0 & _).
    destruct (slot_acc _ _ _ _ _ t s0 Hph) as (ss2 & Hss2 & He); [by left|done|]. rewrite Hss in Hss2. injection Hss2 as <-. rewrite He. by apply (I6 t β').
Qed.
