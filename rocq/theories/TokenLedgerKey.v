(** Token accounts and the ledger: the versions of one account. *)
From Verif Require Import Base SMap DataModel BincodeModel BincodeProofs FilterModel StoreModel TokenModel TokenProofs TokenProps SplModel SplProofs TokenUtilsModel
  TokenUtilsProofs TokenPendModel TokenPendSpec TokenPendProofs TokenPendProps TokenUtilsProps TokenStoreModel TokenStoreSpec TokenStoreProofs TokenStoreViews TokenStoreProps TokenStoreOrder
  TokenStoreQuery TokenStoreQueryProps TokenStoreSafe TokenStoreServed TokenLedgerSpec TokenLedgerProofs.
#[local] Arguments le : simpl never.
#[local] Arguments unle : simpl never.
#[local] Opaque to_bytes from_bytes peek_pubkey.

(** The last delivery of a key. *)
Definition last_of (log : list tpa) (pk : pubkey) : option tpa := last (filter (fun x => tpa_pubkey x = pk) log).
Lemma last_of_other log log' pk : (forall x, x ∈ log' -> tpa_pubkey x <> pk) -> last_of (log ++ log') pk = last_of log pk.
Proof.
  intros H. unfold last_of. rewrite filter_app. assert (filter (fun x => tpa_pubkey x = pk) log' = []) as ->; [|by rewrite app_nil_r].
  induction log' as [|x log' IH]; [done|]. rewrite filter_cons_False by (apply H; left). apply IH. intros y Hy. apply H. by right.
Qed.
Lemma last_all {A} (l : list A) z : z ∈ l -> (forall x, x ∈ l -> x = z) -> last l = Some z.
Proof.
  intros Hz H. destruct (last l) as [x|] eqn:Hl; [f_equal; apply H; by apply last_in|]. apply last_None in Hl. subst l. by apply elem_of_nil in Hz.
Qed.
Lemma last_of_one log log' pk z : z ∈ log' -> tpa_pubkey z = pk -> (forall x, x ∈ log' -> tpa_pubkey x = pk -> x = z) -> last_of (log ++ log') pk = Some z.
Proof.
  intros Hz Hk H. unfold last_of. rewrite filter_app, last_app.
  rewrite (last_all (filter (fun x => tpa_pubkey x = pk) log') z); [done| |].
  - by apply elem_of_list_filter.
  - intros x [Hx1 Hx2]%elem_of_list_filter. by apply H.
Qed.

Section key.
Context (E : ext) (X : lz4x) (pk : pubkey) (T : acct -> tpa -> Prop).
Record kinv (L : tledger) (ts : tstore) (log : list tpa) : Prop := KInv {
  kv_vers : forall s v, version (ts_pend ts) s pk v -> exists a, a ∈ tl_writes L /\ d_pubkey a = pk /\ d_slot a = s /\ d_wv a = v.2 /\ T a v.1 /\
    (unfinal L s -> forall b, b ∈ tl_writes L -> d_pubkey b = pk -> d_slot b = s -> d_wv b <= d_wv a);
  kv_have : forall a, a ∈ tl_writes L -> d_pubkey a = pk -> unfinal L (d_slot a) -> exists v, version (ts_pend ts) (d_slot a) pk v;
  kv_fin : exists o, in_tledger L pk Finalized o /\ match o with None => last_of log pk = None | Some a => exists ty, last_of log pk = Some ty /\ T a ty end;
  kv_log : forall x, x ∈ log -> tpa_pubkey x = pk -> exists a, T a x }.

Lemma kinv_empty : kinv no_tledger ts_empty [].
Proof.
  constructor.
  - intros s v (b & Hb & _). by apply elem_of_nil in Hb.
  - intros a Ha. by apply elem_of_nil in Ha.
  - exists None. split; [|done]. intros a [Ha|[Ha _]]; by apply elem_of_nil in Ha.
  - intros x Hx. by apply elem_of_nil in Hx.
Qed.
Lemma fin_tcounts L a : tl_fin L = None -> tcounts L Finalized a <-> a ∈ tl_base L.
Proof. intros Hf. split; [|by left]. intros [?|[_ [_ (f & Hf' & _)]]]; [done|congruence]. Qed.

(** The version of the account nearest to a confirmed slot is the newest write up to that slot that is not final. *)
Lemma nearest_ledger L ts log x : tl_ok L -> tslots E L ts -> sm_sorted (ts_pend ts) -> parents_before (ts_pend ts) -> kinv L ts log -> is_confirmed L x -> unfinal L x ->
  (forall y, nearest (ts_pend ts) pk x y -> exists a, a ∈ tl_writes L /\ d_pubkey a = pk /\ d_slot a = y.2 /\ T a y.1.1 /\
     is_confirmed L (d_slot a) /\ unfinal L (d_slot a) /\ d_slot a <= x /\
     forall b, b ∈ tl_writes L -> d_pubkey b = pk -> is_confirmed L (d_slot b) -> d_slot b <= x -> older b a) /\
  ((forall y, ~ nearest (ts_pend ts) pk x y) -> forall b, b ∈ tl_writes L -> d_pubkey b = pk -> is_confirmed L (d_slot b) -> d_slot b <= x -> is_final L (d_slot b)).
Proof.
  intros Hok Hsl Hs Hpb [K1 K2 _ _] Hx Hu. pose proof (chain_is E L ts x Hok Hsl Hs Hx Hu) as Hch. split.
  - intros y Hy. pose proof (nearest_chain _ _ _ _ Hy) as [Hc Hv]. apply Hch in Hc as (Hyc & Hyu & Hyx).
    destruct (K1 _ _ Hv) as (a & Ha & Hk & Hsa & Hwv & HT & Hmax). exists a. rewrite Hsa. split_and!; try done.
    intros b Hb Hbk Hbc Hbx. destruct (confirmed_cases L _ Hok Hbc) as [[_ (f & Hf & Hle)]|Hbu].
    { left. rewrite Hsa. specialize (Hyu f Hf). lia. }
    destruct (K2 b Hb Hbk Hbu) as [v Hvb]. assert (d_slot b <= y.2) as Hle.
    { eapply nearest_newest; [done..| |exact Hvb]. apply Hch. done. }
    destruct (N.lt_ge_cases (d_slot b) y.2) as [|Hge]; [left; lia|]. right. split; [lia|]. apply Hmax; [done..|lia].
  - intros Hno b Hb Hbk Hbc Hbx. destruct (confirmed_cases L _ Hok Hbc) as [|Hbu]; [done|]. exfalso.
    destruct (K2 b Hb Hbk Hbu) as [v Hvb]. destruct (chain_version_nearest (ts_pend ts) pk x (d_slot b) v) as [y Hy]; [done|by apply Hch|done|]. by apply (Hno y).
Qed.
Lemma unfinal_mono L L' s : tl_fin L' = tl_fin L -> unfinal L' s <-> unfinal L s.
Proof. unfold unfinal. by intros ->. Qed.
Lemma final_mono L s p x : tl_ok L -> match tl_conf L with [] => True | (t, _) :: _ => t < s end ->
  let L' := TLedger (tl_base L) (tl_writes L) (tl_announced L) ((s, p) :: tl_conf L) (tl_fin L) in is_final L' x <-> is_final L x.
Proof.
  intros Hok Hlt. unfold is_final, is_confirmed. simpl. split.
  - intros [[q Hq] (f & Hf & Hle)]. split; [|by exists f]. apply elem_of_cons in Hq as [[= -> ->]|Hq]; [|by exists q]. exfalso.
    apply (lk_fin _ Hok) in Hf as [q Hq]. destruct (tl_conf L) as [|[t u] c] eqn:Hc; [by apply elem_of_nil in Hq|].
    assert (f <= t) by (apply (confirmed_head L t u Hok); [by rewrite Hc|exists q; by rewrite Hc]). lia.
  - intros [[q Hq] H]. split; [|done]. exists q. by right.
Qed.

Lemma classic_max p s wv : sm_sorted p -> (exists v, version p s pk v /\ wv <= v.2) \/ forall v, version p s pk v -> v.2 < wv.
Proof.
  intros Hs. setoid_rewrite (version_get _ Hs). destruct (sm_get s p) as [b|]; [|right; by intros v (? & ? & _)]. destruct (ps_accounts b !! pk) as [v|] eqn:Hv.
  - destruct (N.le_gt_cases wv v.2); [left; exists v; split; [by exists b|done]|]. right. intros v' (b' & [= <-] & Hv'). by simplify_eq.
  - right. intros v' (b' & [= <-] & Hv'). congruence.
Qed.
Lemma conf_versions p (b : bool) si s v : sm_sorted p ->
  let p1 := if b then pd_slot_info p si else p in version (if sm_get (si_slot si) p1 then p1 else pd_slot_info p1 si) s pk v <-> version p s pk v.
Proof.
  intros Hs p1. assert (sm_sorted p1) as Hs1 by (unfold p1; destruct b; [by apply pd_slot_info_sorted|done]).
  assert (version p1 s pk v <-> version p s pk v) as H1 by (unfold p1; destruct b; [by apply slot_info_version|done]).
  destruct (sm_get _ p1); [done|]. by rewrite slot_info_version.
Qed.
Lemma kinv_event L o L' ts ts' log : tl_ok L -> tslots E L ts -> tinv ts -> parents_before (ts_pend ts) -> tevent E L o L' -> ts_step E X ts o = Done ts' -> op_ok o ->
  (forall a, op_acct o = Some a -> d_pubkey a = pk -> exists ty, accepted E ts a = Some ty /\ T a ty) ->
  kinv L ts log -> kinv L' ts' (log ++ (deliveries E ts o).*1).
Proof.
  intros Hok Hsl Hti Hpb Hev Hst Hoo Hacc Hk. pose proof (ti_sorted _ Hti) as Hs. pose proof (step_view _ _ _ _ _ Hst) as Hv. pose proof Hk as [K1 K2 K3 K4].
  assert (forall a ty, op_acct o = Some a -> accepted E ts a = Some ty -> tpa_pubkey ty = d_pubkey a) as Htk.
  { intros a ty Ho Ha. unfold accepted in Ha. destruct (is_token ts a) as [[]|]; try done. destruct (account_type _ _ _ _) as [[[[ty' ix] ctr]|]|] eqn:Ht; try done.
    injection Ha as ->. assert (d_pubkey a < 2 ^ 256) as Hlt by (destruct o; simpl in Ho, Hoo; simplify_eq; done).
    by destruct (accepted_ok _ _ _ _ _ _ _ Ht Hlt (ti_ix _ Hti)) as (_ & _ & _ & ? & _). }
  destruct Hev as [a Hw Hc Hb|ord si Hp Hn Hr|a H0 Hn Hr Hb|ord si Hp Hse Hc|ord si Hp Hn Hu|ord si Hin Hu].
  - destruct Hv as (V1 & V2 & V3). assert (tl_fin L = None) as Hf.
    { destruct (tl_fin L) as [f|] eqn:Hf; [|done]. apply (lk_fin _ Hok) in Hf as [p Hp]. rewrite Hc in Hp. by apply elem_of_nil in Hp. }
    cbn [deliveries]. constructor.
    + rewrite V1. intros s v Hvv. apply K1 in Hvv as (b & Hb' & _). rewrite Hw in Hb'. by apply elem_of_nil in Hb'.
    + intros b Hb'. by apply elem_of_nil in Hb'.
    + destruct (decide (d_pubkey a = pk)) as [Hpk|Hpk].
      * destruct (Hacc a eq_refl Hpk) as (ty & Ha & HT). rewrite Ha. exists (Some a). split.
        -- split; [split; [left; simpl; set_solver|done]|]. intros b Hcb Hbk. apply fin_tcounts in Hcb; [|done]. simpl in Hcb.
           apply elem_of_app in Hcb as [Hcb| ->%elem_of_list_singleton]; [apply Hb; [done|congruence]|]. right. split; [done|lia].
        -- exists ty. split; [|done]. apply last_of_one; [simpl; left|rewrite (Htk a ty) by done; done|]. intros x Hx _. by apply elem_of_list_singleton in Hx.
      * destruct K3 as (o & Ho & Hl). exists o. assert (last_of (log ++ (match accepted E ts a with Some ty => [(ty, None)] | None => [] end).*1) pk = last_of log pk) as ->.
        { apply last_of_other. intros x Hx. destruct (accepted E ts a) as [ty|] eqn:Ha; simpl in Hx; [|by apply elem_of_nil in Hx].
          apply elem_of_list_singleton in Hx as ->. by rewrite (Htk a ty). }
        split; [|done]. destruct o as [y|].
        -- destruct Ho as [[Ho1 Ho2] Ho3]. split; [split; [|done]|].
           ++ apply fin_tcounts; [done|]. apply fin_tcounts in Ho1; [|done]. simpl. set_solver.
           ++ intros b Hcb Hbk. apply fin_tcounts in Hcb; [|done]. simpl in Hcb. apply elem_of_app in Hcb as [Hcb| ->%elem_of_list_singleton]; [|done]. apply Ho3; [by left|done].
        -- intros b Hcb Hbk. apply fin_tcounts in Hcb; [|done]. simpl in Hcb. apply elem_of_app in Hcb as [Hcb| ->%elem_of_list_singleton]; [|done]. apply (Ho b); [by left|done].
    + intros x Hx Hxk. apply elem_of_app in Hx as [Hx|Hx]; [by apply K4|]. destruct (accepted E ts a) as [ty|] eqn:Ha; simpl in Hx; [|by apply elem_of_nil in Hx].
      apply elem_of_list_singleton in Hx as ->. assert (d_pubkey a = pk) as Hpk by (rewrite <- (Htk a ty); done). destruct (Hacc a eq_refl Hpk) as (ty' & Ha' & HT). exists a. congruence.
  - destruct Hv as (V1 & V2 & V3). cbn [deliveries]. rewrite app_nil_r. constructor; try done.
    + rewrite V3. intros s v Hvv. apply (slot_info_version _ _ _ _ _ Hs) in Hvv. by apply K1.
    + rewrite V3. intros a Ha Hpk Hu. destruct (K2 a Ha Hpk Hu) as [v Hvv]. exists v. by apply slot_info_version.
  - destruct Hv as (V1 & V2 & V3). cbn [deliveries]. rewrite app_nil_r.
    assert (forall b, d_slot b = d_slot a -> ~ is_final (TLedger (tl_base L) (tl_writes L ++ [a]) (tl_announced L) (tl_conf L) (tl_fin L)) (d_slot b)) as Hnf.
    { intros b Hbs [Hbc _]. apply Hn. by rewrite <- Hbs. }
    assert (exists o, in_tledger (TLedger (tl_base L) (tl_writes L ++ [a]) (tl_announced L) (tl_conf L) (tl_fin L)) pk Finalized o /\
      match o with None => last_of log pk = None | Some a => exists ty, last_of log pk = Some ty /\ T a ty end) as K3'.
    { destruct K3 as (o & Ho & Hl). exists o. split; [|done].
      assert (forall b, tcounts (TLedger (tl_base L) (tl_writes L ++ [a]) (tl_announced L) (tl_conf L) (tl_fin L)) Finalized b <-> tcounts L Finalized b) as Hct.
      { intros b. unfold tcounts. simpl. split; intros [|[Hb1 Hb2]]; [by left| |by left|right; split; [set_solver|done]]. right. split; [|done].
        apply elem_of_app in Hb1 as [|Hb1]; [done|]. apply elem_of_list_singleton in Hb1 as ->. by destruct (Hnf a eq_refl). }
      destruct o as [y|]; simpl; [|intros b Hcb; apply Ho; by apply Hct]. destruct Ho as [[Ho1 Ho2] Ho3]. split; [split; [by apply Hct|done]|]. intros b Hcb. apply Ho3. by apply Hct. }
    destruct (decide (d_pubkey a = pk)) as [Hpk|Hpk].
    + destruct (Hacc a eq_refl Hpk) as (ty & Ha & HT). rewrite Ha in V3. rewrite Hpk in V3. constructor; [| |done|done].
      * rewrite V3. intros s v Hvv. apply (insert_version _ _ _ _ _ _ _ _ Hs) in Hvv. simpl. destruct (decide _) as [[-> _]|Hne].
        -- destruct Hvv as [[-> Hmax]|[Hvv Hle]].
           ++ exists a. split_and!; try done; [set_solver|]. intros Hu b Hb' Hbk Hbs. apply elem_of_app in Hb' as [Hb'|Hb']; [|apply elem_of_list_singleton in Hb' as ->; lia].
              destruct (N.le_gt_cases (d_wv b) (d_wv a)) as [|Hgt]; [done|]. exfalso. destruct (K2 b Hb' Hbk) as [v Hvb]; [by rewrite Hbs|]. rewrite Hbs in Hvb.
              pose proof (Hmax v Hvb). destruct (K1 _ _ Hvb) as (a2 & _ & _ & _ & Hw2 & _ & Hm2). specialize (Hm2 Hu b Hb' Hbk Hbs). lia.
           ++ destruct (K1 _ _ Hvv) as (a2 & A1 & A2 & A3 & A4 & A5 & A6). exists a2. split_and!; try done; [set_solver|]. intros Hu b Hb' Hbk Hbs.
              apply elem_of_app in Hb' as [Hb'|Hb']; [by apply A6|]. apply elem_of_list_singleton in Hb' as ->. lia.
        -- destruct (K1 _ _ Hvv) as (a2 & A1 & A2 & A3 & A4 & A5 & A6). exists a2. split_and!; try done; [set_solver|]. intros Hu b Hb' Hbk Hbs.
           apply elem_of_app in Hb' as [Hb'|Hb']; [by apply A6|]. apply elem_of_list_singleton in Hb' as ->. destruct Hne. by split.
      * rewrite V3. simpl. intros b Hb' Hbk Hu. destruct (decide (d_slot b = d_slot a)) as [He|He].
        -- destruct (classic_max (ts_pend ts) (d_slot b) (d_wv a) Hs) as [(v & Hvb & Hle)|Hlt].
           ++ exists v. apply (insert_version _ _ _ _ _ _ _ _ Hs). rewrite decide_True by done. by right.
           ++ exists (ty, d_wv a). apply (insert_version _ _ _ _ _ _ _ _ Hs). rewrite decide_True by done. by left.
        -- apply elem_of_app in Hb' as [Hb'|Hb']; [|apply elem_of_list_singleton in Hb' as ->; done]. destruct (K2 b Hb' Hbk Hu) as [v Hvb]. exists v.
           apply (insert_version _ _ _ _ _ _ _ _ Hs). rewrite decide_False; [done|]. by intros [? _].
    + assert (forall s v, version (ts_pend ts') s pk v <-> version (ts_pend ts) s pk v) as Hve.
      { intros s v. rewrite V3. destruct (accepted E ts a); [|done]. rewrite (insert_version _ _ _ _ _ _ _ _ Hs). rewrite decide_False; [done|]. by intros [_ ?]. }
      constructor; [| |done|done].
      * intros s v Hvv. apply Hve in Hvv. destruct (K1 _ _ Hvv) as (a2 & A1 & A2 & A3 & A4 & A5 & A6). exists a2. simpl. split_and!; try done; [set_solver|]. intros Hu b Hb' Hbk Hbs.
        apply elem_of_app in Hb' as [Hb'|Hb']; [by apply A6|]. by apply elem_of_list_singleton in Hb' as ->.
      * simpl. intros b Hb' Hbk Hu. apply elem_of_app in Hb' as [Hb'|Hb']; [|by apply elem_of_list_singleton in Hb' as ->]. destruct (K2 b Hb' Hbk Hu) as [v Hvb]. exists v. by apply Hve.
  - destruct Hv as (V1 & V2 & V3). cbn [deliveries]. rewrite app_nil_r.
    assert (forall s v, version (ts_pend ts') s pk v <-> version (ts_pend ts) s pk v) as Hve by (intros s v; rewrite V3; by apply conf_versions).
    assert (match tl_conf L with [] => True | (t, _) :: _ => t < si_slot si end) as Hlt by (destruct (tl_conf L) as [|[t u] c]; [done|lia]).
    constructor; [| | |done].
    + intros s v Hvv. apply Hve in Hvv. by apply K1.
    + intros a Ha Hpk Hu. destruct (K2 a Ha Hpk Hu) as [v Hvv]. exists v. by apply Hve.
    + destruct K3 as (o & Ho & Hl). exists o. split; [|done].
      assert (forall b, tcounts (TLedger (tl_base L) (tl_writes L) (tl_announced L) ((si_slot si, si_parent si) :: tl_conf L) (tl_fin L)) Finalized b <-> tcounts L Finalized b) as Hct.
      { intros b. unfold tcounts. cbn [tl_base tl_writes]. by rewrite (final_mono L (si_slot si) (si_parent si) _ Hok Hlt). }
      destruct o as [y|]; simpl; [|intros b Hcb; apply Ho; by apply Hct]. destruct Ho as [[Ho1 Ho2] Ho3]. split; [split; [by apply Hct|done]|]. intros b Hcb. apply Ho3. by apply Hct.
  - destruct Hv as (V1 & V2 & V3). cbn [deliveries]. rewrite app_nil_r.
    assert (forall s v, version (ts_pend ts') s pk v <-> version (ts_pend ts) s pk v) as Hve by (intros s v; rewrite V3; by apply conf_versions).
    constructor; try done.
    + intros s v Hvv. apply Hve in Hvv. by apply K1.
    + intros a Ha Hpk Hf. destruct (K2 a Ha Hpk Hf) as [v Hvv]. exists v. by apply Hve.
  - destruct Hv as (V1 & V2 & V3). destruct (fin_pend_is E L ts si Hok Hsl Hs Hin Hu) as (F0 & F1 & F2 & F3).
    assert (sm_sorted (fin_pend ts si)) as Hs1 by (rewrite F0; by apply pd_slot_info_sorted).
    destruct (finalize_spec (fin_pend ts si) (si_slot si) Hs1) as (Hs2 & Hnear & G1 & G2). cbv zeta in Hnear. rewrite <- V3 in Hs2, G1, G2.
    assert (is_confirmed L (si_slot si)) as Hcs by (by eexists). set (x := si_slot si) in *.
    assert (forall y, on_chain (fin_pend ts si) x y <-> on_chain (ts_pend ts) x y) as Hch.
    { intros y. split.
      - intros Hy. clear - Hy F1 F2. induction Hy as [z Hx|z q y Hx _ IH]; [apply CHere; by apply F2|apply (CUp _ z q y); [by apply F1|done]].
      - intros Hy. clear - Hy F1 F2. induction Hy as [z Hx|z q y Hx _ IH]; [apply CHere; by apply F2|apply (CUp _ z q y); [by apply F1|done]]. }
    assert (forall k y, nearest (fin_pend ts si) k x y <-> nearest (ts_pend ts) k x y) as Hne.
    { intros k y. split.
      - intros Hy. clear - Hy F1 F3. induction Hy as [z v Hx|z q y Hno Hx _ IH]; [apply NHere; by apply F3|apply (NUp _ _ z q y); [|by apply F1|done]]. intros v Hv. apply (Hno v). by apply F3.
      - intros Hy. clear - Hy F1 F3. induction Hy as [z v Hx|z q y Hno Hx _ IH]; [apply NHere; by apply F3|apply (NUp _ _ z q y); [|by apply F1|done]]. intros v Hv. apply (Hno v). by apply F3. }
    set (L' := TLedger (tl_base L) (tl_writes L) (tl_announced L) (tl_conf L) (Some x)).
    assert (forall s, unfinal L' s -> unfinal L s /\ x < s) as Huf.
    { intros s H. specialize (H x eq_refl). split; [|done]. intros f Hf. specialize (Hu f Hf). lia. }
    assert (forall s v, version (ts_pend ts') s pk v -> version (ts_pend ts) s pk v) as Hve1.
    { intros s v Hvv. apply F3. apply (version_get _ Hs2) in Hvv as (b & Hb & Hvv). apply (version_get _ Hs1). exists b. split; [|done]. destruct (G1 s); congruence. }
    assert (forall s v, x < s -> version (ts_pend ts) s pk v -> version (ts_pend ts') s pk v) as Hve2.
    { intros s v Hlt Hvv. apply F3 in Hvv. apply (version_get _ Hs1) in Hvv as (b & Hb & Hvv). apply (version_get _ Hs2). exists b. split; [|done].
      destruct (G1 s) as [|Hg]; [congruence|]. apply G2 in Hg as [Hg|[Hg|Hg]]; [congruence|lia|]. apply Hch in Hg.
      apply (chain_is E L ts x Hok Hsl Hs Hcs Hu) in Hg as (_ & _ & ?). lia. }
    assert (forall b, is_final L' (d_slot b) <-> is_confirmed L (d_slot b) /\ d_slot b <= x) as Hfin.
    { intros b. unfold is_final. simpl. split; [intros [? (f & [= <-] & ?)]; done|intros [? ?]; split; [done|by exists x]]. }
    assert (forall b, is_final L (d_slot b) -> is_final L' (d_slot b)) as Hfm.
    { intros b [Hbc (f & Hf & Hle)]. apply Hfin. split; [done|]. specialize (Hu f Hf). lia. }
    set (M := (pd_finalize (fin_pend ts si) x).2) in *.
    assert (forall z, z ∈ (deliveries E ts (TSlot ord si Finalized)).*1 -> tpa_pubkey z = pk <-> exists y, M !! pk = Some y /\ z = y.1.1) as Hdel.
    { intros z Hz. cbn [deliveries] in Hz. rewrite <- list_fmap_compose in Hz. apply elem_of_list_fmap in Hz as ([k [v' s']] & -> & Hk').
      change (if ts_fin ts <? si_slot si then pd_slot_info (ts_pend ts) si else ts_pend ts) with (fin_pend ts si) in Hk'. fold x M in Hk'.
      rewrite (Hoo M) in Hk'. apply elem_of_map_to_list in Hk'. simpl. assert (tpa_pubkey v'.1 = k) as Hkk.
      { apply Hnear, Hne, nearest_chain in Hk' as [_ Hvk]. by apply (ti_pend _ Hti) in Hvk as [_ ?]. }
      split.
      - intros Hkp. exists (v', s'). split; [|done]. congruence.
      - intros ([v2 s2] & Hy & Hz). simpl in Hz. rewrite Hz. apply Hnear, Hne, nearest_chain in Hy as [_ Hvk]. by apply (ti_pend _ Hti) in Hvk as [_ ?]. }
    destruct (nearest_ledger L ts log x Hok Hsl Hs Hpb Hk Hcs Hu) as [N1 N2].
    constructor.
    + intros s v Hvv. destruct (K1 _ _ (Hve1 _ _ Hvv)) as (a2 & A1 & A2 & A3 & A4 & A5 & A6). exists a2. split_and!; try done. intros Hus. apply A6. by apply Huf in Hus as [? _].
    + intros a Ha Hpk Hua. apply Huf in Hua as [Hua Hlt]. destruct (K2 a Ha Hpk Hua) as [v Hvv]. exists v. by apply Hve2.
    + destruct (M !! pk) as [y|] eqn:HM.
      * pose proof HM as Hny. apply Hnear, Hne in Hny. destruct (N1 y Hny) as (a & A1 & A2 & A3 & A4 & A5 & A6 & A7 & A8). exists (Some a). split.
        -- split; [split; [|done]|].
           ++ right. split; [done|]. apply Hfin. done.
           ++ intros b [Hb|[Hb1 Hb2]] Hbk; [left; apply (lk_base _ Hok a b); [done..|congruence]|]. apply Hfin in Hb2 as [Hb2 Hb3]. by apply A8.
        -- exists y.1.1. split; [|done]. apply last_of_one.
           ++ cbn [deliveries]. rewrite <- list_fmap_compose. apply elem_of_list_fmap. exists (pk, y). split; [done|].
              change (if ts_fin ts <? si_slot si then pd_slot_info (ts_pend ts) si else ts_pend ts) with (fin_pend ts si). fold x M. rewrite (Hoo M). apply elem_of_map_to_list. exact HM.
           ++ apply nearest_chain in Hny as [_ Hvk]. by apply (ti_pend _ Hti) in Hvk as [_ ?].
           ++ intros z Hz Hzk. apply Hdel in Hzk as (y' & Hy' & ->); [|done]. congruence.
      * destruct K3 as (o & Ho & Hl). exists o.
        assert (last_of (log ++ (deliveries E ts (TSlot ord si Finalized)).*1) pk = last_of log pk) as ->.
        { apply last_of_other. intros z Hz Hzk. apply Hdel in Hzk as (y' & Hy' & _); [|done]. congruence. }
        split; [|done].
        assert (forall y, ~ nearest (ts_pend ts) pk x y) as Hno. { intros y Hy. apply Hne, Hnear in Hy. congruence. }
        assert (forall b, d_pubkey b = pk -> tcounts L' Finalized b <-> tcounts L Finalized b) as Hct.
        { intros b Hbk. unfold tcounts. simpl. split; intros [|[Hb1 Hb2]]; [by left| |by left|right; split; [done|by apply Hfm]]. right. split; [done|].
          apply Hfin in Hb2 as [Hb2 Hb3]. by apply (N2 Hno). }
        destruct o as [y|]; simpl; [|intros b Hcb Hbk; apply (Ho b); [by apply Hct|done]]. destruct Ho as [[Ho1 Ho2] Ho3]. split; [split; [by apply Hct|done]|].
        intros b Hcb Hbk. apply Ho3; [by apply Hct|done].
    + intros z Hz Hzk. apply elem_of_app in Hz as [Hz|Hz]; [by apply K4|]. apply Hdel in Hzk as (y & Hy & ->); [|done].
      apply Hnear, Hne in Hy. destruct (N1 y Hy) as (a & _ & _ & _ & HT & _). by exists a.
Qed.

(** The newest confirmed slot. *)
Lemma conf_ledger L ts log : tl_ok L -> tslots E L ts -> sm_sorted (ts_pend ts) -> parents_before (ts_pend ts) -> kinv L ts log ->
  (forall y, nearest (ts_pend ts) pk (ts_conf ts) y -> exists a, a ∈ tl_writes L /\ d_pubkey a = pk /\ d_slot a = y.2 /\ T a y.1.1 /\
     is_confirmed L (d_slot a) /\ unfinal L (d_slot a) /\ forall b, b ∈ tl_writes L -> d_pubkey b = pk -> is_confirmed L (d_slot b) -> older b a) /\
  ((forall y, ~ nearest (ts_pend ts) pk (ts_conf ts) y) -> forall b, b ∈ tl_writes L -> d_pubkey b = pk -> is_confirmed L (d_slot b) -> is_final L (d_slot b)).
Proof.
  intros Hok Hsl Hs Hpb Hk. rewrite (sl_conf _ _ _ Hsl). destruct (tl_conf L) as [|[t u] c] eqn:Hc.
  - split.
    + intros y Hy. exfalso. assert (present (ts_pend ts) 0) as Hp.
      { inversion Hy as [s v Hv|s s' x _ Hp _]; subst; [by apply version_present in Hv|by apply parent_present in Hp]. }
      apply (sl_touched _ _ _ Hsl), (lk_pos _ Hok) in Hp. lia.
    + intros _ b _ _ [p Hp]. rewrite Hc in Hp. by apply elem_of_nil in Hp.
  - assert (is_confirmed L t) as Ht by (exists u; rewrite Hc; left). assert (forall s, is_confirmed L s -> s <= t) as Hle by (apply (confirmed_head L t u Hok); by rewrite Hc).
    destruct (confirmed_cases L t Hok Ht) as [Hf|Hu].
    + split.
      * intros y Hy. exfalso. apply (sl_gone _ _ _ Hsl t Hf). inversion Hy as [s v Hv|s s' x _ Hp _]; subst; [by apply version_present in Hv|by apply parent_present in Hp].
      * intros _ b _ _ Hb. split; [done|]. destruct Hf as [_ (f & Hf & Hlt)]. exists f. split; [done|]. specialize (Hle _ Hb). lia.
    + destruct (nearest_ledger L ts log t Hok Hsl Hs Hpb Hk Ht Hu) as [N1 N2]. split.
      * intros y Hy. destruct (N1 y Hy) as (a & A1 & A2 & A3 & A4 & A5 & A6 & _ & A8). exists a. split_and!; try done. intros b Hb Hbk Hbc. apply A8; [done..|]. by apply Hle.
      * intros Hno b Hb Hbk Hbc. apply N2; [done..|]. by apply Hle.
Qed.
Lemma newest_exists p conf : sm_sorted p -> (exists x, newest_above p conf pk x) \/ forall s v, conf < s -> ~ version p s pk v.
Proof.
  intros _. induction p as [|[s b] p IH] using rev_ind.
  { right. intros s v _ (b & Hb & _). by apply elem_of_nil in Hb. }
  assert (forall s' v, version (p ++ [(s, b)]) s' pk v <-> version p s' pk v \/ s' = s /\ ps_accounts b !! pk = Some v) as Hv.
  { intros s' v. split.
    - intros (b' & Hb & Hv). apply elem_of_app in Hb as [Hb|Hb]; [left; by exists b'|]. apply elem_of_list_singleton in Hb. injection Hb as -> ->. by right.
    - intros [(b' & Hb & Hv)|[-> Hv]]; [exists b'; split; [set_solver|done]|exists b; split; [set_solver|done]]. }
  destruct (ps_accounts b !! pk) as [w|] eqn:Hw.
  2:{ destruct IH as [[x [H1 [H2 H3]]]|IH].
      - left. exists x. split; [done|]. split; [apply Hv; by left|]. intros s' v Hlt [H|[_ H]]%Hv; [by eapply H3|done].
      - right. intros s' v Hlt [H|[_ H]]%Hv; [by eapply IH|done]. }
  destruct (N.lt_ge_cases conf s) as [Hlt|Hge].
  2:{ destruct IH as [[x [H1 [H2 H3]]]|IH].
      - left. exists x. split; [done|]. split; [apply Hv; by left|]. intros s' v Hl [H|[-> H]]%Hv; [by eapply H3|lia].
      - right. intros s' v Hl [H|[-> H]]%Hv; [by eapply IH|lia]. }
  left. destruct IH as [[x [H1 [H2 H3]]]|IH].
  - destruct (N.le_gt_cases s x.2) as [Hle|Hgt].
    + exists x. split; [done|]. split; [apply Hv; by left|]. intros s' v Hl [H|[-> H]]%Hv; [by eapply H3|done].
    + exists (w, s). split; [done|]. split; [apply Hv; by right|]. simpl. intros s' v Hl [H|[-> H]]%Hv; [|lia]. specialize (H3 s' v Hl H). lia.
  - exists (w, s). split; [done|]. split; [apply Hv; by right|]. simpl. intros s' v Hl [H|[-> H]]%Hv; [by apply IH in H|lia].
Qed.
(** What the pending store answers for the account. *)
Lemma pend_ledger L ts log c : tl_ok L -> tslots E L ts -> tinv ts -> parents_before (ts_pend ts) -> kinv L ts log -> c <> Finalized ->
  exists r g, pd_get (ts_pend ts) [pk] c (ts_conf ts) = Done r /\ head r = Some g /\
  match g with
  | Some ((ty, w), s) => exists a, in_tledger L pk c (Some a) /\ T a ty /\ d_slot a = s /\ a ∈ tl_writes L /\ ~ is_final L s
  | None => forall o, in_tledger L pk Finalized o -> in_tledger L pk c o
  end.
Proof.
  intros Hok Hsl Hti Hpb Hk Hcf. pose proof (ti_sorted _ Hti) as Hs. destruct (reads_end (ts_pend ts) [pk] c (ts_conf ts)) as [r Hr]; [done|done|by apply before_acyclic|].
  destruct (conf_ledger L ts log Hok Hsl Hs Hpb Hk) as [N1 N2]. exists r.
  assert (forall b, is_confirmed L (d_slot b) -> d_slot b <= ts_conf ts) as Hbelow.
  { intros b Hb. rewrite (sl_conf _ _ _ Hsl). destruct (tl_conf L) as [|[t u] l] eqn:Hc; [destruct Hb as [p Hp]; rewrite Hc in Hp; by apply elem_of_nil in Hp|].
    apply (confirmed_head L t u Hok); [by rewrite Hc|done]. }
  assert (forall s, ts_conf ts < s -> unfinal L s) as Hunf.
  { intros s Hlt f Hf. apply (lk_fin _ Hok) in Hf as Hfc. pose proof (Hbelow (Acct 0 (Account 0 (DRaw []) 0 false 0) f 0) Hfc). simpl in *. lia. }
  assert (forall b, match tl_conf L with [] => True | (t, _) :: _ => t < d_slot b end -> b ∈ tl_writes L -> ts_conf ts < d_slot b) as Habove.
  { intros b Hb Hin. rewrite (sl_conf _ _ _ Hsl). destruct (tl_conf L) as [|[t u] l]; [|done]. apply (lk_pos _ Hok). left. right. by exists b. }
  assert (forall s, unfinal L s -> ~ is_final L s) as Hnf.
  { intros s Hu [_ (f & Hf & Hle)]. specialize (Hu f Hf). lia. }
  (* the nearest version of the newest confirmed slot, when no later slot counts *)
  assert (forall c', c' = Confirmed \/ (c' = Processed /\ forall s v, ts_conf ts < s -> ~ version (ts_pend ts) s pk v) -> forall b, tcounts L c' b -> d_pubkey b = pk ->
    b ∈ tl_base L \/ (b ∈ tl_writes L /\ is_confirmed L (d_slot b))) as Hcnt.
  { intros c' Hc' b [Hb|[Hb Hbc]] Hbk; [by left|]. right. split; [done|]. destruct Hc' as [->|[-> Hno]]; [done|]. destruct Hbc as [|Hbc]; [done|]. exfalso.
    pose proof (Habove b Hbc Hb) as Hlt. destruct (kv_have _ _ _ Hk b Hb Hbk (Hunf _ Hlt)) as [v Hv]. by apply (Hno _ _ Hlt) in Hv. }
  assert (forall c', c' = Confirmed \/ (c' = Processed /\ forall s v, ts_conf ts < s -> ~ version (ts_pend ts) s pk v) -> forall ty w s, nearest (ts_pend ts) pk (ts_conf ts) ((ty, w), s) ->
    exists a, in_tledger L pk c' (Some a) /\ T a ty /\ d_slot a = s /\ a ∈ tl_writes L /\ ~ is_final L s) as Hsome.
  { intros c' Hc' ty w s Hn. destruct (N1 _ Hn) as (a & A1 & A2 & A3 & A4 & A5 & A6 & A7). simpl in A3, A4. exists a. split_and!; try done; [|by subst s; apply Hnf].
    split; [split; [|done]|].
    - right. split; [done|]. destruct Hc' as [->|[-> _]]; [done|by left].
    - intros b Hb Hbk. destruct (Hcnt c' Hc' b Hb Hbk) as [Hb'|[Hb1 Hb2]]; [left; apply (lk_base _ Hok); [done|done|congruence]|by apply A7]. }
  assert (forall c', c' = Confirmed \/ (c' = Processed /\ forall s v, ts_conf ts < s -> ~ version (ts_pend ts) s pk v) -> (forall y, ~ nearest (ts_pend ts) pk (ts_conf ts) y) ->
    forall o, in_tledger L pk Finalized o -> in_tledger L pk c' o) as Hnone.
  { intros c' Hc' Hno o Ho. assert (forall b, d_pubkey b = pk -> tcounts L c' b -> tcounts L Finalized b) as Hd.
    { intros b Hbk Hb. destruct (Hcnt c' Hc' b Hb Hbk) as [?|[Hb1 Hb2]]; [by left|]. right. split; [done|]. by apply N2. }
    assert (forall b, tcounts L Finalized b -> tcounts L c' b) as Hu.
    { intros b [?|[Hb1 [Hb2 Hb3]]]; [by left|]. right. split; [done|]. destruct Hc' as [->|[-> _]]; [done|by left]. }
    destruct o as [x|]; simpl in *.
    - destruct Ho as [[H1 H2] H3]. split; [split; [by apply Hu|done]|]. intros b Hb Hbk. apply H3; [by apply Hd|done].
    - intros b Hb Hbk. apply (Ho b); [by apply Hd|done]. }
  destruct c; [| |done].
  - destruct (proc_read_spec _ _ _ _ Hs Hr 0%nat pk eq_refl) as (g & Hg & Hgx). exists g. split; [done|]. split; [by destruct r; simpl in *|].
    destruct (newest_exists (ts_pend ts) (ts_conf ts) Hs) as [[x Hx]|Hno].
    + assert (g = Some x) as -> by (apply Hgx; by left). destruct x as [[ty w] s]. destruct Hx as (X1 & X2 & X3). simpl in X1, X2, X3.
      destruct (kv_vers _ _ _ Hk _ _ X2) as (a & A1 & A2 & A3 & A4 & A5 & A6). simpl in *. exists a. split; [|split; [done|split; [done|split; [done|by apply Hnf, Hunf]]]].
      split; [split; [|done]|].
      * right. split; [done|]. right. rewrite (sl_conf _ _ _ Hsl) in X1. destruct (tl_conf L) as [|[t u] l]; [done|by rewrite A3].
      * intros b [Hb|[Hb Hbc]] Hbk; [left; apply (lk_base _ Hok); [done|done|congruence]|]. destruct Hbc as [Hbc|Hbc]; [apply Hbelow in Hbc; left; lia|].
        pose proof (Habove b Hbc Hb) as Hlt. destruct (kv_have _ _ _ Hk b Hb Hbk (Hunf _ Hlt)) as [v Hv]. specialize (X3 _ _ Hlt Hv).
        destruct (N.lt_ge_cases (d_slot b) s) as [|Hge]; [left; lia|]. right. split; [lia|]. apply A6; [by apply Hunf|done..|lia].
    + destruct g as [[[ty w] s]|].
      * destruct (proj1 (Hgx _) eq_refl) as [(X1 & X2 & _)|[_ Hn]]; [by apply (Hno _ _ X1) in X2|]. apply (Hsome Processed) with (w := w); [by right|done].
      * apply (Hnone Processed); [by right|]. intros y Hy. assert (None = Some y) as Hx; [|done]. apply Hgx. by right.
  - destruct (conf_read_spec _ _ _ _ Hs Hr) as [_ H]. destruct (H 0%nat pk eq_refl) as (g & Hg & Hgx). exists g. split; [done|]. split; [by destruct r; simpl in *|].
    destruct g as [[[ty w] s]|].
    + apply (Hsome Confirmed) with (w := w); [by left|]. by apply Hgx.
    + apply (Hnone Confirmed); [by left|]. intros y Hy. apply Hgx in Hy. done.
Qed.
End key.

(** Runs of orderly streams. *)
Lemma event_parent E L o L' : tl_ok L -> tevent E L o L' -> parent_ok o.
Proof. intros Hok H. destruct H; simpl; try done. by apply (linked_lt _ _ _ (lk_linked _ Hok)). Qed.
Lemma orderly_run E X l L ts : t_orderly E l L -> ops_ok l -> ts_run E X ts_empty l = Done ts -> ts_ctr ts <= 2 ^ 32 ->
  tl_ok L /\ tslots E L ts /\ tinv ts /\ parents_before (ts_pend ts).
Proof.
  intros Ho. revert ts. induction Ho as [|l L o L' Ho IH Hev]; intros ts Hok Hr Hc.
  { simpl in Hr. injection Hr as <-. split; [apply tl_ok_empty|]. split; [apply tslots_empty|]. split; [apply tinv_empty|apply parents_before_empty]. }
  apply Forall_app in Hok as [Hok Hoo]. apply Forall_cons in Hoo as [Hoo _]. destruct (run_app _ _ _ _ _ _ Hr) as (ts1 & H1 & H2). cbn [ts_run] in H2.
  destruct (ts_step E X ts1 o) as [ts2|] eqn:Hst; [|done]. cbn [mbind res_bind] in H2. injection H2 as ->.
  pose proof (step_ctr _ _ _ _ _ Hst Hoo). destruct (IH ts1 Hok H1) as (I1 & I2 & I3 & I4); [lia|].
  split; [by eapply tl_ok_event|]. split; [by eapply tslots_event; eauto using ti_sorted|]. split; [by eapply step_inv|].
  eapply (step_before E X ts1 o); try done. by eapply event_parent.
Qed.
Lemma orderly_kinv E X pk (T : acct -> tpa -> Prop) l L ts : t_orderly E l L -> ops_ok l -> ts_run E X ts_empty l = Done ts -> ts_ctr ts <= 2 ^ 32 ->
  (forall l1 o l2 a L1 ts1 ts2, l = l1 ++ o :: l2 -> op_acct o = Some a -> d_pubkey a = pk -> t_orderly E l1 L1 -> ts_run E X ts_empty l1 = Done ts1 -> tinv ts1 -> ts_step E X ts1 o = Done ts2 ->
    ts_run E X ts2 l2 = Done ts -> kinv pk T L1 ts1 (ts_log E X ts_empty l1).*1 -> exists ty, accepted E ts1 a = Some ty /\ T a ty) ->
  kinv pk T L ts (ts_log E X ts_empty l).*1.
Proof.
  intros Ho Hok Hr Hc Hacc. assert (forall l1 l2 L1 ts1, l = l1 ++ l2 -> t_orderly E l1 L1 -> ts_run E X ts_empty l1 = Done ts1 -> kinv pk T L1 ts1 (ts_log E X ts_empty l1).*1) as H.
  2:{ apply (H l [] L ts); [by rewrite app_nil_r|done|done]. }
  clear Ho L. intros l1 l2 L1 ts1 Hl Ho1. revert l2 ts1 Hl. induction Ho1 as [|l1 L1 o L2 Ho1 IH Hev]; intros l2 ts1' Hl Hr1.
  { simpl in Hr1. injection Hr1 as <-. apply kinv_empty. }
  rewrite <- app_assoc in Hl. simpl in Hl. destruct (run_app _ _ _ _ _ _ Hr1) as (ts1 & H1 & H2). cbn [ts_run] in H2.
  destruct (ts_step E X ts1 o) as [ts2|] eqn:Hst; [|done]. cbn [mbind res_bind] in H2. injection H2 as <-.
  assert (ts_run E X ts2 l2 = Done ts) as H3. { rewrite Hl in Hr. rewrite (run_app_done _ _ _ _ _ _ H1) in Hr. cbn [ts_run] in Hr. by rewrite Hst in Hr. }
  assert (ops_ok l1 /\ op_ok o /\ ops_ok l2) as (Hk1 & Hko & Hk2). { rewrite Hl in Hok. apply Forall_app in Hok as [? Hx]. by apply Forall_cons in Hx as [? ?]. }
  pose proof (run_ctr _ _ _ _ _ H3 Hk2). pose proof (step_ctr _ _ _ _ _ Hst Hko). destruct (orderly_run E X l1 L1 ts1 Ho1 Hk1 H1) as (I1 & I2 & I3 & I4); [lia|].
  rewrite (log_app _ _ _ _ _ _ H1), fmap_app. cbn [ts_log]. rewrite Hst. cbn [ts_log]. rewrite app_nil_r.
  eapply kinv_event; try done; [|by eapply IH]. intros a Ha Hpk. eapply Hacc; try done. by eapply IH.
Qed.
