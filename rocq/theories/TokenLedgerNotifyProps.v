(** Token accounts and the ledger: what the store reports about slots on orderly streams (C94). *)
From Verif Require Import Base SMap DataModel BincodeModel BincodeProofs FilterModel StoreModel TokenModel TokenProofs TokenProps SplModel SplProofs TokenUtilsModel
  TokenUtilsProofs TokenPendModel TokenPendSpec TokenPendProofs TokenPendProps TokenUtilsProps TokenStoreModel TokenStoreSpec TokenStoreProofs TokenStoreViews TokenStoreProps TokenStoreOrder
  TokenStoreQuery TokenStoreQueryProps TokenStoreSafe TokenStoreServed TokenSnapProps TokenLedgerSpec TokenLedgerProofs TokenLedgerKey TokenLedgerProps TokenLedgerEdge TokenLedgerQueryProps.
#[local] Arguments le : simpl never.
#[local] Arguments unle : simpl never.
#[local] Opaque to_bytes from_bytes peek_pubkey.

(** ** Specification *)
(** The conditions of C92 for a token account, a mint or a multisig. *)
Inductive good_key (E : ext) (l : list tsop) (L : tledger) (pk : pubkey) : Prop :=
| gk_token : token_account_key E l pk -> TokenLedgerSpec.mints_known E l L pk -> good_key E l L pk
| gk_mint : (forall o a, o ∈ l -> op_acct o = Some a -> d_pubkey a = pk -> exists p v, live_with E a p v /\ clean_mint v) -> good_key E l L pk
| gk_multi : (forall o a, o ∈ l -> op_acct o = Some a -> d_pubkey a = pk -> exists p v, live_with E a p v /\ clean_multisig v) -> good_key E l L pk.
(** [b] is the version [a] with its slot. *)
Definition is_version (E : ext) (a b : acct) : Prop :=
  d_pubkey b = d_pubkey a /\ d_owner b = d_owner a /\ data_bytes E (d_data b) = data_bytes E (d_data a) /\ d_slot b = d_slot a.
(** The accounts reported when the ledger goes from [L] to [L']: about the account [pk] exactly its newest version, if it is open and did not count before. *)
Definition reports (E : ext) (L L' : tledger) (c : commitment) (pk : pubkey) (r : list acct) : Prop :=
  (forall b, b ∈ r -> d_pubkey b = pk -> exists a, in_tledger L' pk c (Some a) /\ ~ tcounts L c a /\ ~ closed a /\ is_version E a b) /\
  (told_apart L -> forall a, in_tledger L' pk c (Some a) -> ~ tcounts L c a -> ~ closed a -> exists b, b ∈ r /\ is_version E a b).

(** ** Conversions *)
Lemma to_accts_elem mints l r : to_accts mints l = Done r -> forall b, b ∈ r <-> exists ty s w, (ty, s, w) ∈ l /\ tpa_to_acct ty s w mints = Done (Some b).
Proof.
  revert r. induction l as [|[[ty s] w] l IH]; intros r H b.
  { injection H as <-. split; [intros Hb; by apply elem_of_nil in Hb|]. intros (ty & s & w & Hin & _). by apply elem_of_nil in Hin. }
  simpl in H. destruct (tpa_to_acct ty s w mints) as [o|] eqn:Ho; [|done]. cbn [mbind res_bind] in H. destruct (to_accts mints l) as [r0|]; [|done]. cbn [mbind res_bind] in H. injection H as <-.
  assert (b ∈ match o with Some x => x :: r0 | None => r0 end <-> o = Some b \/ b ∈ r0) as ->. { destruct o as [x|]; [rewrite elem_of_cons|]; naive_solver. }
  rewrite (IH r0 eq_refl b). split.
  - intros [->|(ty' & s' & w' & H1 & H2)]; [exists ty, s, w; split; [left|done]|exists ty', s', w'; split; [by right|done]].
  - intros (ty' & s' & w' & H1 & H2). apply elem_of_cons in H1 as [[= -> -> ->]|H1]; [left; congruence|right; eauto 6].
Qed.
Lemma tpa_key ty s w mints b : tpa_to_acct ty s w mints = Done (Some b) -> d_pubkey b = tpa_pubkey ty.
Proof.
  destruct ty as [t|m|m pk|pk]; simpl; intros H.
  - apply token_to_acct_some in H as (_ & H & _). done.
  - by injection H as <-.
  - unfold multisig_to_acct in H. repeat case_match; try done; cbn [mbind res_bind] in *; by simplify_eq.
  - done.
Qed.
Lemma to_accts_keys mints l r : to_accts mints l = Done r -> NoDup ((fun x => tpa_pubkey x.1.1) <$> l) -> NoDup (d_pubkey <$> r).
Proof.
  revert r. induction l as [|[[ty s] w] l IH]; intros r H Hnd; [injection H as <-; constructor|].
  simpl in H, Hnd. apply NoDup_cons in Hnd as [Hn Hnd]. destruct (tpa_to_acct ty s w mints) as [o|] eqn:Ho; [|done]. cbn [mbind res_bind] in H. destruct (to_accts mints l) as [r0|] eqn:Hr; [|done].
  cbn [mbind res_bind] in H. injection H as <-. specialize (IH r0 eq_refl Hnd). destruct o as [x|]; [|done]. simpl. apply NoDup_cons. split; [|done]. intros Hin. apply Hn.
  apply elem_of_list_fmap in Hin as (b & Hb & Hbr). apply (to_accts_elem _ _ _ Hr) in Hbr as (ty' & s' & w' & Hin & Ht). apply elem_of_list_fmap. exists (ty', s', w'). split; [|done].
  simpl. rewrite <- (tpa_key _ _ _ _ _ Ho), Hb. by apply tpa_key in Ht.
Qed.

(** ** What is reported *)
Lemma conf_reported ord ts si ts' r : tinv ts -> ts_slot ord ts si Confirmed = Done (ts', r) -> NoDup (d_pubkey <$> r) /\
  forall b, b ∈ r <-> exists pk v, version (ts_pend ts) (si_slot si) pk v /\ tpa_to_acct v.1 (si_slot si) v.2 (ts_mints ts) = Done (Some b).
Proof.
  intros Hti H. pose proof (ti_sorted _ Hti) as Hs. unfold ts_slot in H. set (ts1 := if ts_conf ts <? si_slot si then _ else ts) in H.
  assert (ts_mints ts1 = ts_mints ts) as Hm by (unfold ts1; by destruct (_ <? _)). rewrite Hm in H.
  assert (sm_sorted (ts_pend ts1) /\ forall s pk v, version (ts_pend ts1) s pk v <-> version (ts_pend ts) s pk v) as [Hs1 Hv].
  { unfold ts1. destruct (_ <? _); simpl; [|done]. split; [by apply pd_slot_info_sorted|]. intros s pk v. by apply slot_info_version. }
  unfold pd_for_slot in H. destruct (sm_get (si_slot si) (ts_pend ts1)) as [b0|] eqn:Hb0.
  - destruct (to_accts _ _) as [r0|] eqn:Hr; [|done]. cbn [mbind res_bind] in H. injection H as _ <-. split.
    + apply (to_accts_keys _ _ _ Hr). rewrite <- list_fmap_compose. erewrite (list_fmap_ext _ fst (map_to_list (ps_accounts b0))); [apply NoDup_fst_map_to_list|].
      intros i [pk [ty w]] Hi. simpl. apply elem_of_list_lookup_2, elem_of_map_to_list in Hi.
      assert (version (ts_pend ts) (si_slot si) pk (ty, w)) as Hvv by (apply Hv, (version_get _ Hs1); by exists b0). by apply (ti_pend _ Hti) in Hvv as [_ ?].
    + intros b. rewrite (to_accts_elem _ _ _ Hr). split.
      * intros (ty & s & w & Hin & Ht). apply elem_of_list_fmap in Hin as ([pk [ty' w']] & [= -> -> ->] & Hin). apply elem_of_map_to_list in Hin.
        exists pk, (ty', w'). split; [|done]. apply Hv, (version_get _ Hs1). by exists b0.
      * intros (pk & [ty w] & Hvv & Ht). apply Hv, (version_get _ Hs1) in Hvv as (b1 & Hb1 & Hvv). rewrite Hb0 in Hb1. injection Hb1 as <-.
        exists ty, (si_slot si), w. split; [|done]. apply elem_of_list_fmap. exists (pk, (ty, w)). split; [done|]. by apply elem_of_map_to_list.
  - cbn [mbind res_bind] in H. injection H as _ <-. split; [constructor|]. intros b. split; [intros Hb; by apply elem_of_nil in Hb|].
    intros (pk & v & Hvv & _). apply Hv, (version_get _ Hs1) in Hvv as (b1 & Hb1 & _). congruence.
Qed.
Lemma fin_reported ord ts si ts' r : (forall m, ord m ≡ₚ map_to_list m) -> (forall pk y, (pd_finalize (fin_pend ts si) (si_slot si)).2 !! pk = Some y -> tpa_pubkey y.1.1 = pk) ->
  ts_slot ord ts si Finalized = Done (ts', r) -> NoDup (d_pubkey <$> r) /\
  forall b, b ∈ r <-> exists pk y, (pd_finalize (fin_pend ts si) (si_slot si)).2 !! pk = Some y /\ tpa_to_acct y.1.1 y.2 y.1.2 (ts_mints ts) = Done (Some b).
Proof.
  intros Hord Hkey H. unfold ts_slot in H. set (ts1 := if ts_fin ts <? si_slot si then _ else ts) in H.
  assert (ts_mints ts1 = ts_mints ts) as Hm by (unfold ts1; by destruct (_ <? _)). assert (ts_pend ts1 = fin_pend ts si) as Hp by (unfold ts1, fin_pend; by destruct (_ <? _)). rewrite Hp in H.
  destruct (pd_finalize (fin_pend ts si) (si_slot si)) as [p m] eqn:Hf. cbn [ts_mints set_pend] in H. rewrite Hm in H. simpl in Hkey |- *.
  destruct (to_accts _ _) as [r0|] eqn:Hr; [|done]. cbn [mbind res_bind] in H. destruct (add_all _ _) as [ts2|]; [|done]. cbn [mbind res_bind] in H. injection H as _ <-.
  assert (forall x, x ∈ ord m <-> m !! x.1 = Some x.2) as Hom. { intros [k y]. by rewrite (Hord m), elem_of_map_to_list. }
  split.
  - apply (to_accts_keys _ _ _ Hr). rewrite <- !list_fmap_compose. erewrite (list_fmap_ext _ fst (ord m)); [rewrite (Hord m); apply NoDup_fst_map_to_list|].
    intros i [pk [[ty w] s]] Hi. simpl. apply elem_of_list_lookup_2, Hom in Hi. by apply Hkey in Hi.
  - intros b. rewrite (to_accts_elem _ _ _ Hr). split.
    + intros (ty & s & w & Hin & Ht). rewrite <- list_fmap_compose in Hin. apply elem_of_list_fmap in Hin as ([pk [[ty' w'] s']] & [= -> -> ->] & Hin). apply Hom in Hin.
      by exists pk, ((ty', w'), s').
    + intros (pk & [[ty w] s] & Hin & Ht). exists ty, s, w. split; [|done]. rewrite <- list_fmap_compose. apply elem_of_list_fmap. exists (pk, ((ty, w), s)). split; [done|]. by apply Hom.
Qed.
(** The finalized chain is read off the recorded slots. *)
Lemma fin_nearest E L ts si : tl_ok L -> tslots E L ts -> sm_sorted (ts_pend ts) -> (si_slot si, si_parent si) ∈ tl_conf L -> unfinal L (si_slot si) ->
  forall pk y, (pd_finalize (fin_pend ts si) (si_slot si)).2 !! pk = Some y <-> nearest (ts_pend ts) pk (si_slot si) y.
Proof.
  intros Hok Hsl Hs Hin Hu pk y. destruct (fin_pend_is E L ts si Hok Hsl Hs Hin Hu) as (F0 & F1 & F2 & F3).
  assert (sm_sorted (fin_pend ts si)) as Hs1 by (rewrite F0; by apply pd_slot_info_sorted). destruct (finalize_spec (fin_pend ts si) (si_slot si) Hs1) as (_ & Hnear & _).
  cbv zeta in Hnear. rewrite Hnear. set (x := si_slot si). clearbody x. split.
  - intros Hy. clear - Hy F1 F3. induction Hy as [z v Hx|z q y Hno Hx _ IH]; [apply NHere; by apply F3|apply (NUp _ _ z q y); [|by apply F1|done]]. intros v Hv. apply (Hno v). by apply F3.
  - intros Hy. clear - Hy F1 F3. induction Hy as [z v Hx|z q y Hno Hx _ IH]; [apply NHere; by apply F3|apply (NUp _ _ z q y); [|by apply F1|done]]. intros v Hv. apply (Hno v). by apply F3.
Qed.

(** ** The accounts reported about one key *)
Lemma report_core E pk (T : acct -> tpa -> Prop) L L' ts log ord si c ts' r : tl_ok L -> tslots E L ts -> tinv ts -> parents_before (ts_pend ts) -> kinv pk T L ts log ->
  (forall a ty slot, T a ty -> d_pubkey a = pk -> exists x, tpa_to_acct ty slot 0 (ts_mints ts) = Done x /\ shown E a slot x) ->
  tevent E L (TSlot ord si c) L' -> (forall m, ord m ≡ₚ map_to_list m) -> (c = Confirmed -> ~ is_confirmed L (si_slot si)) -> ts_slot ord ts si c = Done (ts', r) ->
  reports E L L' c pk r.
Proof.
  intros Hok Hsl Hti Hpb Hkv Hshow Hev Hord Hnew Hst. pose proof (ti_sorted _ Hti) as Hs.
  (* a version and what it converts to *)
  assert (forall a ty s w x, T a ty -> d_pubkey a = pk -> tpa_to_acct ty s w (ts_mints ts) = Done x -> d_slot a = s ->
    (closed a /\ x = None) \/ (~ closed a /\ exists b, x = Some b /\ is_version E a b)) as Hconv.
  { intros a ty s w x HT Hak Hx Hsa. destruct (Hshow a ty s HT Hak) as (x0 & Hx0 & Hsh). destruct (tpa_wv ty s 0 w _ x0 Hx0) as (y & Hy & Hbw). rewrite Hx in Hy. injection Hy as <-.
    destruct Hsh as [[H1 ->]|[H1 (b & -> & H2 & H3 & H4 & H5)]]; [left; split; [done|by destruct x]|]. right. split; [done|]. destruct x as [b'|]; [|done].
    destruct Hbw as (B1 & B2 & B3 & B4). exists b'. split; [done|]. split_and!; congruence. }
  assert (forall ty s w a, T a ty -> d_pubkey a = pk -> exists x, tpa_to_acct ty s w (ts_mints ts) = Done x) as Hdone.
  { intros ty s w a HT Hak. destruct (Hshow a ty s HT Hak) as (x0 & Hx0 & _). destruct (tpa_wv ty s 0 w _ x0 Hx0) as (y & Hy & _). eauto. }
  assert (forall L2 c2 a a', tl_writes L2 = tl_writes L -> tl_base L2 = tl_base L -> told_apart L -> in_tledger L2 pk c2 (Some a) -> in_tledger L2 pk c2 (Some a') -> a = a') as Hfun.
  { intros L2 c2 a a' Hw Hb Hta H H'. destruct (in_tledger_fun _ _ _ _ _ H H') as [H1 H2]. destruct H as [[Ha Hk] _], H' as [[Ha' Hk'] _]. unfold tcounts in Ha, Ha'. rewrite Hw, Hb in Ha, Ha'.
    apply Hta; [apply elem_of_app; destruct Ha as [?|[? _]]; tauto|apply elem_of_app; destruct Ha' as [?|[? _]]; tauto|congruence|done|done]. }
  inversion Hev as [|? ? Hlt Hnc Hnr|? ? |? ? Hlt Hseen Htop|? ? Hlt Hcf Huf|? ? Hin Huf]; subst.
  - (* announced *)
    simpl in Hst. injection Hst as _ <-. split; [intros b Hb; by apply elem_of_nil in Hb|]. intros _ a [[Ha _] _] Hna. destruct Hna. exact Ha.
  - (* confirmed *)
    specialize (Hnew eq_refl). destruct (conf_reported ord ts si ts' r Hti Hst) as [_ Hel]. set (s := si_slot si) in *. set (L' := TLedger _ _ _ _ _).
    assert (forall x, is_confirmed L' x <-> x = s \/ is_confirmed L x) as Hc'.
    { intros x. unfold is_confirmed. simpl. split; [intros [p Hp]; apply elem_of_cons in Hp as [[= -> ->]|Hp]; [by left|right; by exists p]|].
      intros [->|[p Hp]]; [eexists; left|exists p; by right]. }
    assert (forall x, is_confirmed L x -> x < s) as Hbelow.
    { intros x Hx. destruct (tl_conf L) as [|[t u] cs] eqn:Hcs; [destruct Hx as [p Hp]; rewrite Hcs in Hp; by apply elem_of_nil in Hp|].
      assert (x <= t); [|lia]. apply (confirmed_head L t u Hok); [by rewrite Hcs|done]. }
    assert (unfinal L s) as Hu. { intros f Hf. by apply Hbelow, (lk_fin _ Hok). }
    assert (forall a, in_tledger L' pk Confirmed (Some a) -> ~ tcounts L Confirmed a -> a ∈ tl_writes L /\ d_slot a = s) as Hat.
    { intros a [[Ha _] _] Hn. destruct Ha as [Ha|[Ha Hac]]; [destruct Hn; by left|]. split; [done|]. apply Hc' in Hac as [|Hac]; [done|]. destruct Hn. by right. }
    assert (forall v, version (ts_pend ts) s pk v -> exists a, T a v.1 /\ d_slot a = s /\ in_tledger L' pk Confirmed (Some a) /\ ~ tcounts L Confirmed a) as Hver.
    { intros v Hv. destruct (kv_vers _ _ _ _ _ Hkv s v Hv) as (a & A1 & A2 & A3 & A4 & A5 & A6). exists a. split; [done|]. split; [done|]. split.
      - split; [split; [|done]|].
        + right. split; [done|]. apply Hc'. by left.
        + intros b [Hb|[Hb Hbc]] Hbk; [left; apply (lk_base _ Hok a b); [done|done|congruence]|]. apply Hc' in Hbc as [Hbs|Hbc].
          * right. split; [congruence|]. by apply A6.
          * left. rewrite A3. by apply Hbelow.
      - intros [Hb|[_ Hac]]; [|apply Hbelow in Hac; lia]. pose proof (lk_base _ Hok a a A1 Hb eq_refl). lia. }
    split.
    + intros b Hb Hbk. apply Hel in Hb as (pk' & v & Hv & Ht). assert (pk' = pk) as ->. { apply tpa_key in Ht. apply (ti_pend _ Hti) in Hv as [_ Hv]. congruence. }
      destruct (Hver v Hv) as (a & HT & Has & Ha & Hna). exists a. split; [done|]. split; [done|].
      destruct (Hconv a v.1 s v.2 (Some b) HT) as [[_ ?]|[Hno (b' & [= <-] & Hb')]]; [by destruct Ha as [[_ ?] _]|done|done|done|done].
    + intros Hta a Ha Hna Hno. destruct (Hat a Ha Hna) as [Haw Has]. assert (d_pubkey a = pk) as Hak by (by destruct Ha as [[_ ?] _]).
      destruct (kv_have _ _ _ _ _ Hkv a Haw Hak) as [v Hv]; [by rewrite Has|]. rewrite Has in Hv. destruct (Hver v Hv) as (a' & HT & Has' & Ha' & Hna').
      assert (a' = a) as -> by (by eapply (Hfun L' Confirmed)). destruct (Hdone v.1 s v.2 a HT Hak) as [x Hx].
      destruct (Hconv a v.1 s v.2 x HT Hak Hx Has) as [[? _]|[_ (b & -> & Hb)]]; [done|]. exists b. split; [|done]. apply Hel. eauto.
  - by destruct (Hnew eq_refl).
  - (* finalized *)
    set (s := si_slot si) in *. set (L' := TLedger _ _ _ _ _). assert (is_confirmed L s) as Hcs by (by eexists). pose proof (fin_nearest E L ts si Hok Hsl Hs Hin Huf) as Hfn. fold s in Hfn.
    assert (forall k y, nearest (ts_pend ts) k s y -> tpa_pubkey y.1.1 = k) as Hkey. { intros k y Hy. apply nearest_chain in Hy as [_ Hy]. by apply (ti_pend _ Hti) in Hy as [_ ?]. }
    destruct (fin_reported ord ts si ts' r Hord) as [_ Hel]; [intros k y Hy; by apply Hkey, Hfn|done|]. fold s in Hel.
    destruct (nearest_ledger E pk T L ts log s Hok Hsl Hs Hpb Hkv Hcs Huf) as [N1 N2].
    assert (forall b, is_final L' (d_slot b) <-> is_confirmed L (d_slot b) /\ d_slot b <= s) as Hfin.
    { intros b. unfold is_final. simpl. split; [intros [? (f & [= <-] & ?)]; done|intros [? ?]; split; [done|by exists s]]. }
    assert (forall y, nearest (ts_pend ts) pk s y -> exists a, T a y.1.1 /\ d_slot a = y.2 /\ in_tledger L' pk Finalized (Some a) /\ ~ tcounts L Finalized a) as Hver.
    { intros y Hy. destruct (N1 y Hy) as (a & A1 & A2 & A3 & A4 & A5 & A6 & A7 & A8). exists a. split; [done|]. split; [done|]. split.
      - split; [split; [|done]|].
        + right. split; [done|]. by apply Hfin.
        + intros b [Hb|[Hb1 Hb2]] Hbk; [left; apply (lk_base _ Hok a b); [done|done|congruence]|]. apply Hfin in Hb2 as [Hb2 Hb3]. by apply A8.
      - intros [Hb|[_ [_ (f & Hf & Hle)]]]; [pose proof (lk_base _ Hok a a A1 Hb eq_refl); lia|]. specialize (A6 f Hf). lia. }
    split.
    + intros b Hb Hbk. apply Hel in Hb as (pk' & y & Hy & Ht). apply Hfn in Hy. assert (pk' = pk) as ->. { apply tpa_key in Ht. apply Hkey in Hy. congruence. }
      destruct (Hver y Hy) as (a & HT & Has & Ha & Hna). exists a. split; [done|]. split; [done|].
      destruct (Hconv a y.1.1 y.2 y.1.2 (Some b) HT) as [[_ ?]|[Hno (b' & [= <-] & Hb')]]; [by destruct Ha as [[_ ?] _]|done|done|done|done].
    + intros Hta a Ha Hna Hno. assert (d_pubkey a = pk) as Hak by (by destruct Ha as [[_ ?] _]).
      assert (a ∈ tl_writes L /\ is_confirmed L (d_slot a) /\ d_slot a <= s /\ ~ is_final L (d_slot a)) as (Haw & Hac & Has & Hnf).
      { destruct Ha as [[Ha _] _]. destruct Ha as [Ha|[Ha Haf]]; [destruct Hna; by left|]. apply Hfin in Haf as [? ?]. split_and!; try done. intros Hf. apply Hna. by right. }
      destruct ((pd_finalize (fin_pend ts si) s).2 !! pk) as [y|] eqn:HM.
      2:{ destruct Hnf. apply N2; try done. intros y Hy. apply Hfn in Hy. congruence. }
      pose proof HM as Hy. apply Hfn in Hy. destruct (Hver y Hy) as (a' & HT & Has' & Ha' & Hna'). assert (a' = a) as -> by (by eapply (Hfun L' Finalized)).
      destruct (Hdone y.1.1 y.2 y.1.2 a HT Hak) as [x Hx]. destruct (Hconv a y.1.1 y.2 y.1.2 x HT Hak Hx Has') as [[? _]|[_ (b & -> & Hb)]]; [done|]. exists b. split; [|done]. apply Hel. eauto.
Qed.

(** ** C94.  On an orderly stream the accounts reported for a slot are the changes of the ledger. *)
Theorem C94_reports_changes E X l L ts ord si c L' ts' r pk : t_orderly E l L -> ops_ok l -> ts_run E X ts_empty l = Done ts -> ts_ctr ts <= 2 ^ 32 ->
  tevent E L (TSlot ord si c) L' -> (forall m, ord m ≡ₚ map_to_list m) -> (c = Confirmed -> ~ is_confirmed L (si_slot si)) -> ts_slot ord ts si c = Done (ts', r) ->
  good_key E l L pk -> reports E L L' c pk r.
Proof.
  intros Ho Hok Hr Hc Hev Hord Hnew Hst Hg. destruct (orderly_run E X l L ts Ho Hok Hr Hc) as (I1 & I2 & I3 & I4). destruct Hg as [H1 H2|H1|H1].
  - eapply report_core; try done; [by eapply token_kinv|by eapply token_shown].
  - eapply report_core; try done; [by eapply clean_mint_kinv|]. intros a ty slot HT _. by apply mint_shown.
  - eapply report_core; try done; [by eapply multi_kinv|]. intros a ty slot HT _. by apply multi_shown.
Qed.
Print Assumptions C94_reports_changes.
(** Every account is reported at most once. *)
Theorem C94_reports_once E X l L ts ord si c L' ts' r : t_orderly E l L -> ops_ok l -> ts_run E X ts_empty l = Done ts -> ts_ctr ts <= 2 ^ 32 ->
  tevent E L (TSlot ord si c) L' -> (forall m, ord m ≡ₚ map_to_list m) -> ts_slot ord ts si c = Done (ts', r) -> NoDup (d_pubkey <$> r).
Proof.
  intros Ho Hok Hr Hc Hev Hord Hst. destruct (orderly_run E X l L ts Ho Hok Hr Hc) as (I1 & I2 & I3 & I4). pose proof (ti_sorted _ I3) as Hs. destruct c.
  - simpl in Hst. injection Hst as _ <-. constructor.
  - by destruct (conf_reported ord ts si ts' r I3 Hst).
  - inversion Hev as [| | | | |? ? Hin Huf]; subst. destruct (fin_reported ord ts si ts' r Hord) as [? _]; [|done|done].
    intros k y Hy. apply (fin_nearest E L ts si I1 I2 Hs Hin Huf), nearest_chain in Hy as [_ Hy]. by apply (ti_pend _ I3) in Hy as [_ ?].
Qed.
Print Assumptions C94_reports_once.

(** ** Examples *)
(** The stream [tl_hist4] up to the confirmation of slot 11, and with slot 11 finalized at its end. *)
Definition before_conf : list tsop := take 11 tl_hist4.
Definition reported (l : list tsop) (si : slot_info) (c : commitment) : list (N * option N * N) :=
  match ts_slot ord0 (final l) si c with Done (_, r) => (fun b => (d_pubkey b, amount_of (Done (ROk (Some b))), d_slot b)) <$> r | _ => [] end.
Lemma next_event l o : match tledger_of no_tledger (l ++ [o]) with Some _ => true | None => false end = true -> t_orderly E0 l (tledger_at l) /\ tevent E0 (tledger_at l) o (tledger_at (l ++ [o])).
Proof.
  unfold tledger_at. assert (forall L0, tledger_of L0 (l ++ [o]) = match tledger_of L0 l with Some L => tnext L o | None => None end) as Happ.
  { clear. induction l as [|x l IH]; intros L0; simpl; [by destruct (tnext L0 o)|]. by destruct (tnext L0 x). }
  rewrite Happ. destruct (tledger_of no_tledger l) as [L|] eqn:Hl; [|done]. intros H. split; [by apply tledger_of_orderly|]. apply tnext_event. by destruct (tnext L o).
Qed.
Lemma prefix_good n : keys_check (take n tl_hist4) (tledger_at (take n tl_hist4)) = true -> bool_decide (77 ∈ omap (fun o => fst <$> tok_of o) (take n tl_hist4)) = true ->
  good_key E0 (take n tl_hist4) (tledger_at (take n tl_hist4)) 77.
Proof.
  intros H1 H2%bool_decide_eq_true. assert (Forall plain_acct (given (take n tl_hist4))) as Hp.
  { assert (Forall (fun o => forall a, op_acct o = Some a -> plain_acct a) tl_hist4) as Hall. { repeat (constructor; [intros a Ha; simpl in Ha; first [done|injection Ha as <-; first [by apply pa_tok|by apply pa_mint]]|]). constructor. }
    apply Forall_forall. intros a Ha. apply elem_of_list_omap in Ha as (o & Ho & Ha). rewrite Forall_forall in Hall. apply (Hall o); [|done]. rewrite <- (take_drop n tl_hist4). apply elem_of_app. by left. }
  assert (token_key E0 (take n tl_hist4) 77) as Hk.
  { apply elem_of_list_omap in H2 as (o & Ho & H2). destruct (tok_of o) as [[pk r]|] eqn:Ht; [|done]. simpl in H2. injection H2 as ->. exists o, r. split; [done|].
    unfold tok_of, op_bytes in Ht. destruct (op_acct o) as [a|] eqn:Ha; [|done]. simpl in Ht. destruct (d_data a) as [v| |] eqn:Hd; try done. simpl in Ht.
    destruct (unpack_account v) as [r'|] eqn:Hu; [|done]. simpl in Ht. injection Ht as Hk ->. exists a, v. rewrite Hd. by split_and!. }
  destruct (keys_checked _ _ Hp H1 77 Hk) as [H3 H4]. by apply gk_token.
Qed.
Example C94_reports_changes_example :
  (t_orderly E0 before_conf (tledger_at before_conf) /\ ops_ok before_conf /\ ts_run E0 X0 ts_empty before_conf = Done (final before_conf) /\ ts_ctr (final before_conf) <= 2 ^ 32 /\
   tevent E0 (tledger_at before_conf) (TSlot ord0 (SlotInfo 11 10 0) Confirmed) (tledger_at (before_conf ++ [TSlot ord0 (SlotInfo 11 10 0) Confirmed])) /\
   ~ is_confirmed (tledger_at before_conf) 11 /\ good_key E0 before_conf (tledger_at before_conf) 77 /\ told_apart (tledger_at before_conf) /\
   reported before_conf (SlotInfo 11 10 0) Confirmed = [(77, Some 7, 11)]) /\
  (t_orderly E0 tl_hist4 (tledger_at tl_hist4) /\ ops_ok tl_hist4 /\ ts_run E0 X0 ts_empty tl_hist4 = Done (final tl_hist4) /\ ts_ctr (final tl_hist4) <= 2 ^ 32 /\
   tevent E0 (tledger_at tl_hist4) (TSlot ord0 (SlotInfo 11 10 0) Finalized) (tledger_at (tl_hist4 ++ [TSlot ord0 (SlotInfo 11 10 0) Finalized])) /\
   good_key E0 tl_hist4 (tledger_at tl_hist4) 77 /\ told_apart (tledger_at tl_hist4) /\ reported tl_hist4 (SlotInfo 11 10 0) Finalized = [(77, Some 7, 11)]).
Proof.
  split.
  - destruct (next_event before_conf (TSlot ord0 (SlotInfo 11 10 0) Confirmed)) as [H1 H2]; [by vm_compute|]. split; [done|]. split; [repeat constructor; simpl; try done; intros m; done|].
    split; [apply final_run; by vm_compute|]. split; [by vm_compute|]. split; [done|]. split; [apply confb_spec; by vm_compute|]. split; [apply prefix_good; by vm_compute|].
    split; [apply told_apart_check; by vm_compute|by vm_compute].
  - destruct (next_event tl_hist4 (TSlot ord0 (SlotInfo 11 10 0) Finalized)) as [H1 H2]; [by vm_compute|]. split; [done|]. split; [repeat constructor; simpl; try done; intros m; done|].
    split; [apply final_run; by vm_compute|]. split; [by vm_compute|]. split; [done|]. split; [apply (prefix_good 14); by vm_compute|].
    split; [apply told_apart_check; by vm_compute|by vm_compute].
Qed.

(** ** Findings *)
(** A slot confirmed a second time is reported a second time, though nothing changes in the ledger. *)
Theorem C94_confirmed_again_refuted : exists E X l L ts ord si ts' b r pk, t_orderly E l L /\ ops_ok l /\ ts_run E X ts_empty l = Done ts /\ ts_ctr ts <= 2 ^ 32 /\
  tevent E L (TSlot ord si Confirmed) L /\ (forall m, ord m ≡ₚ map_to_list m) /\ ts_slot ord ts si Confirmed = Done (ts', b :: r) /\ good_key E l L pk /\ d_pubkey b = pk /\
  ~ reports E L L Confirmed pk (b :: r).
Proof.
  destruct (ts_slot ord0 (final (take 12 tl_hist4)) (SlotInfo 11 10 0) Confirmed) as [[ts' [|b r]]|] eqn:Hst; [by vm_compute in Hst| |by vm_compute in Hst].
  exists E0, X0, (take 12 tl_hist4), (tledger_at (take 12 tl_hist4)), (final (take 12 tl_hist4)), ord0, (SlotInfo 11 10 0), ts', b, r, 77.
  assert (d_pubkey b = 77) as Hb.
  { assert (match ts_slot ord0 (final (take 12 tl_hist4)) (SlotInfo 11 10 0) Confirmed with Done (_, b :: _) => d_pubkey b =? 77 | _ => false end = true) as H by (by vm_compute).
    rewrite Hst in H. by apply N.eqb_eq in H. }
  split; [apply tledger_at_orderly; by vm_compute|]. split; [repeat constructor; simpl; try done; intros m; done|]. split; [apply final_run; by vm_compute|]. split; [by vm_compute|].
  split.
  { apply te_confirm_again; [done| |].
    - exists 10. assert (tl_conf (tledger_at (take 12 tl_hist4)) = [(11, 10); (10, 9)]) as -> by (by vm_compute). left.
    - intros f Hf. assert (tl_fin (tledger_at (take 12 tl_hist4)) = None) as H by (by vm_compute). congruence. }
  split; [intros m; done|]. split; [done|]. split; [apply prefix_good; by vm_compute|]. split; [done|].
  intros [H _]. destruct (H b) as (a & [[Ha _] _] & Hna & _); [left|done|by apply Hna].
Qed.
Print Assumptions C94_confirmed_again_refuted.
