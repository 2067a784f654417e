(** The stream consumer (C77). *)
From Verif Require Import Base SMap DataModel BincodeModel BincodeProofs FilterModel StoreModel TokenModel TokenProofs TokenProps SplModel SplProofs TokenUtilsModel
  TokenUtilsProofs TokenPendModel TokenPendSpec TokenPendProofs TokenPendProps TokenUtilsProps TokenStoreModel TokenStoreSpec TokenStoreProofs TokenStoreViews TokenStoreProps TokenStoreOrder
  TokenStoreQuery TokenStoreQueryProps TokenStoreSafe TokenStoreServed Lz4Model TokenSnapSpec TokenSnapProofs StreamModel StreamSpec.
#[local] Arguments le : simpl never.
#[local] Arguments unle : simpl never.
#[local] Opaque to_bytes from_bytes peek_pubkey.

(** ** What a message becomes.  An account reported without compression reaches the store exactly as reported, at processed, with its slot
    and write version.  (With compression it does not, see below.) *)
Theorem C77_reported_partial E ord g A : g_comp g = GNone -> reports E g A ->
  exists a, msg_op E ord (GAccountMsg g) = Done (Some (TUpdate a Processed)) /\ to_solana E a.(d_account) = Done A /\
    d_pubkey a = g_pubkey g /\ d_slot a = g_slot g /\ d_wv a = g_wv g.
Proof.
  intros Hc (H1 & H2 & H3 & H4 & H5). rewrite Hc in H5. simpl. unfold msg_acct. rewrite Hc. simpl. eexists. split; [done|]. split; [|done].
  unfold to_solana. simpl. rewrite H1, H2, H3, H4, H5. by destruct A.
Qed.
Print Assumptions C77_reported_partial.
(** Slot messages: confirmed and finalized ones are forwarded, everything else changes nothing. *)
Theorem C77_slots E X ord ts m ts' : (forall g, m <> GAccountMsg g) -> stream_run E X ord ts [m] = Done ts' ->
  match m with
  | GSlotMsg s p LConfirmed => exists out, ts_slot ord ts (SlotInfo s p 0) Confirmed = Done (ts', out)
  | GSlotMsg s p LFinalized => exists out, ts_slot ord ts (SlotInfo s p 0) Finalized = Done (ts', out)
  | _ => ts' = ts
  end.
Proof.
  intros Hm H. destruct m as [g|s p lv|]; [by destruct (Hm g)| |by injection H].
  destruct lv; cbn [stream_run msg_op mbind res_bind] in H; try (by injection H); unfold ts_step in H; destruct (ts_slot _ _ _ _) as [[ts1 out]|]; cbn [mbind res_bind] in H; try done;
    injection H as ->; eauto.
Qed.
Print Assumptions C77_slots.

(** ** The loop is a history of the store *)
Definition plain_acct (g : gacct) : acct := Acct (g_pubkey g) (Account (g_lamports g) (DRaw (g_data g)) (g_owner g) (g_exec g) (g_rent g)) (g_slot g) (g_wv g).
Definition op_of (ord : drain) (m : gmsg) : option tsop :=
  match m with
  | GAccountMsg g => Some (TUpdate (plain_acct g) Processed)
  | GSlotMsg s p LConfirmed => Some (TSlot ord (SlotInfo s p 0) Confirmed)
  | GSlotMsg s p LFinalized => Some (TSlot ord (SlotInfo s p 0) Finalized)
  | _ => None
  end.
Lemma msg_op_plain E ord m : plain m -> msg_op E ord m = Done (op_of ord m).
Proof. intros H. destruct m as [g|s p lv|]; [|by destruct lv|done]. simpl in *. unfold msg_acct. by rewrite H. Qed.
Lemma stream_ops E X ord ms ts : Forall plain ms -> stream_run E X ord ts ms = ts_run E X ts (omap (M:=list) (op_of ord) ms).
Proof.
  intros H. revert ts. induction H as [|m ms Hm _ IH]; intros ts; [done|]. cbn [stream_run]. rewrite (msg_op_plain E ord m Hm). cbn [mbind res_bind].
  simpl omap. destruct (op_of ord m) as [o|]; cbn [mbind res_bind ts_run]; [|done]. destruct (ts_step E X ts o); [|done]. cbn [mbind res_bind]. apply IH.
Qed.
Lemma op_of_ok ord ms : (forall m, ord m ≡ₚ map_to_list m) -> Forall msg_ok ms -> ops_ok (omap (M:=list) (op_of ord) ms) /\ Forall parent_ok (omap (M:=list) (op_of ord) ms).
Proof.
  intros Ho H. induction H as [|m ms Hm _ [IH1 IH2]]; [by split; constructor|]. simpl. destruct m as [g|s p lv|]; [|destruct lv|]; simpl in *; try done; split; constructor; try done.
Qed.
Lemma in_ops ord ms o : o ∈ omap (M:=list) (op_of ord) ms -> exists m, m ∈ ms /\ op_of ord m = Some o.
Proof. intros H. by apply elem_of_list_omap in H as (m & ? & ?); exists m. Qed.
Lemma update_in ord ms b c : TUpdate b c ∈ omap (M:=list) (op_of ord) ms -> exists g, GAccountMsg g ∈ ms /\ b = plain_acct g /\ c = Processed.
Proof. intros ([g|s p lv|] & Hm & H)%in_ops; [|by destruct lv|done]. injection H as <- <-. eauto. Qed.
Lemma slot_in ord ms od si c : TSlot od si c ∈ omap (M:=list) (op_of ord) ms ->
  exists lv, GSlotMsg (si_slot si) (si_parent si) lv ∈ ms /\ match c with Confirmed => lv = LConfirmed | Finalized => lv = LFinalized | Processed => False end.
Proof. intros ([g|s p lv|] & Hm & H)%in_ops; [done| |done]. exists lv. destruct lv; try done; injection H as <- <- <-; done. Qed.
Lemma accounts_in ms g : g ∈ accounts_of ms <-> GAccountMsg g ∈ ms.
Proof.
  unfold accounts_of. rewrite elem_of_list_omap. split; [intros ([g'|s p lv|] & Hm & H); try done; by injection H as ->|intros H; by exists (GAccountMsg g)].
Qed.
Lemma conf_after_app l1 l2 : (forall od si, TSlot od si Confirmed ∉ l1) -> conf_after (l1 ++ l2) = conf_after l2.
Proof.
  intros H. unfold conf_after. rewrite foldl_app. f_equal. induction l1 as [|o l1 IH] using rev_ind; [done|]. rewrite foldl_app. simpl.
  rewrite IH by (intros od si Hin; apply (H od si); set_solver). destruct o as [| |od si []|]; try done. destruct (H od si). set_solver.
Qed.
Lemma conf_after_bound l s : 0 < s -> (forall od si, TSlot od si Confirmed ∈ l -> si_slot si < s) -> conf_after l < s.
Proof.
  intros H0. induction l as [|o l IH] using rev_ind; intros H; [done|]. unfold conf_after in *. rewrite foldl_app. simpl.
  assert (foldl (fun f o => match o with TSlot _ si Confirmed => N.max f (si_slot si) | _ => f end) 0 l < s) as Hl by (apply IH; intros od si Hin; apply (H od si); set_solver).
  destruct o as [| |od si []|]; try done. assert (si_slot si < s) by (apply (H od si); set_solver). lia.
Qed.
Definition snap_ops (gs : list gacct) : list tsop := TInit ∘ snap_acct <$> gs.
Lemma snap_in gs o : o ∈ snap_ops gs -> exists g, g ∈ gs /\ o = TInit (snap_acct g).
Proof. intros (g & -> & H)%elem_of_list_fmap. eauto. Qed.
Lemma snap_ok gs : Forall (fun g => g_pubkey g < 2 ^ 256) gs -> ops_ok (snap_ops gs) /\ Forall parent_ok (snap_ops gs).
Proof. intros H. unfold snap_ops. induction H; split; simpl; try constructor; try done; apply IHForall. Qed.
(** Every account of snapshot and stream in terms of the operations. *)
Lemma acct_of gs ord ms o a : o ∈ snap_ops gs ++ omap (M:=list) (op_of ord) ms -> op_acct o = Some a ->
  exists g, g ∈ gs ++ accounts_of ms /\ d_pubkey a = g_pubkey g /\ d_data a = DRaw (g_data g) /\ d_lamports a = g_lamports g /\ d_owner a = g_owner g.
Proof.
  intros [Ho|Ho]%elem_of_app Ha.
  - apply snap_in in Ho as (g & Hg & ->). injection Ha as <-. exists g. split; [apply elem_of_app; by left|done].
  - apply in_ops in Ho as ([g|s p lv|] & Hm & H); [|by destruct lv; try done; injection H as <-|done]. injection H as <-. injection Ha as <-.
    exists g. split; [apply elem_of_app; right; by apply accounts_in|done].
Qed.
Lemma token_live E g p r : token_of g p r -> live_with E (plain_acct g) p (g_data g) /\ clean_token (g_data g) /\ unpack_account (g_data g) = Some r.
Proof.
  intros (H1 & H2 & H3 & H4 & H5). split; [by constructor|]. rewrite H4. split; [by exists r|]. by apply unpack_pack_account.
Qed.

(** ** Served at processed.  After loading a snapshot [gs] and consuming the messages [ms] and then the account [g], reading [g] at
    processed returns what was reported, if [g] is newer than the other versions in the stream and than what is confirmed. *)
Theorem C77_processed_partial E X ord gs ts0 ms g ts p r :
  (forall m, ord m ≡ₚ map_to_list m) -> Forall (fun g => g_pubkey g < 2 ^ 256) gs -> Forall plain (ms ++ [GAccountMsg g]) -> Forall msg_ok (ms ++ [GAccountMsg g]) ->
  ts_run E X ts_empty (snap_ops gs) = Done ts0 -> stream_run E X ord ts0 (ms ++ [GAccountMsg g]) = Done ts -> ts_ctr ts <= 2 ^ 32 ->
  token_of g p r -> 0 < g_slot g -> (forall s, confirmed ms s -> s < g_slot g) ->
  (forall g', g' ∈ accounts_of ms -> g_pubkey g' = g_pubkey g -> g_slot g' < g_slot g \/ (g_slot g' = g_slot g /\ g_wv g' < g_wv g)) ->
  is_Some (mint_state (ts_log E X ts_empty (snap_ops gs ++ omap (M:=list) (op_of ord) ms)).*1 (sa_mint r)) ->
  exists b, ts_get ts (g_pubkey g) Processed = Done (ROk (Some b)) /\ d_pubkey b = g_pubkey g /\ d_owner b = g_owner g /\
    data_bytes E (d_data b) = Done (g_data g) /\ d_slot b = g_slot g.
Proof.
  intros Ho Hgs Hp Hok H0 H1 Hc Ht H0s Hconf Hnew Hm. destruct (token_live E g p r Ht) as (Hl & Hcl & Hu).
  rewrite (stream_ops E X ord _ _ Hp) in H1. rewrite omap_app in H1. simpl in H1.
  destruct (op_of_ok ord _ Ho Hok) as [Hk1 Hk2]. rewrite omap_app in Hk1, Hk2. simpl in Hk1, Hk2. destruct (snap_ok gs Hgs) as [Hk3 Hk4].
  destruct (C44_served_partial E X (snap_ops gs ++ omap (M:=list) (op_of ord) ms) (plain_acct g) Processed ts p (g_data g) r) as (b & Hb & B1 & B2 & B3 & B4 & _); try done.
  - rewrite <- app_assoc. by rewrite (run_app_done _ _ _ _ _ _ H0).
  - rewrite <- app_assoc. by apply Forall_app.
  - apply Forall_app in Hk2 as [Hk2 _]. by apply Forall_app.
  - intros b c [Hin|Hin]%elem_of_app Hcf Hk; [apply snap_in in Hin as (g' & _ & ?); done|].
    apply update_in in Hin as (g' & Hin & -> & ->). apply (Hnew g'); [by apply accounts_in|done].
  - rewrite conf_after_app by (intros od si Hin; apply snap_in in Hin as (g' & _ & ?); done). apply conf_after_bound; [done|]. intros od si Hin.
    apply slot_in in Hin as (lv & Hin & ->). apply Hconf. by eexists.
  - exists b. done.
Qed.
Print Assumptions C77_processed_partial.

(** ** Served at finalized.  Once its slot is finalized the newest version of that slot is what finalized reads return. *)
Theorem C77_finalized_partial E X ord gs ts0 ms1 g ms2 par ts p r :
  let ms := ms1 ++ GAccountMsg g :: ms2 ++ [GSlotMsg (g_slot g) par LFinalized] in
  (forall m, ord m ≡ₚ map_to_list m) -> Forall (fun g => g_pubkey g < 2 ^ 256) gs -> Forall plain ms -> Forall msg_ok ms ->
  ts_run E X ts_empty (snap_ops gs) = Done ts0 -> stream_run E X ord ts0 ms = Done ts -> ts_ctr ts <= 2 ^ 32 ->
  token_of g p r -> (forall s, finalized ms2 s -> s < g_slot g) ->
  (forall g', g' ∈ accounts_of (ms1 ++ ms2) -> g_pubkey g' = g_pubkey g -> g_slot g' = g_slot g -> g_wv g' < g_wv g) ->
  private_key (gs ++ accounts_of ms) (g_pubkey g) -> never_closed (gs ++ accounts_of ms) (sa_mint r) ->
  is_Some (mint_state (ts_log E X ts_empty (snap_ops gs ++ omap (M:=list) (op_of ord) ms)).*1 (sa_mint r)) ->
  exists b, ts_get ts (g_pubkey g) Finalized = Done (ROk (Some b)) /\ d_pubkey b = g_pubkey g /\ d_owner b = g_owner g /\
    data_bytes E (d_data b) = Done (g_data g) /\ d_slot b = ts_fin ts.
Proof.
  intros ms Ho Hgs Hp Hok H0 H1 Hc Ht Hfin Hlast Hpk Hnc Hm. destruct (token_live E g p r Ht) as (Hl & Hcl & Hu).
  rewrite (stream_ops E X ord _ _ Hp) in H1. destruct (op_of_ok ord _ Ho Hok) as [Hk1 Hk2]. destruct (snap_ok gs Hgs) as [Hk3 Hk4].
  assert (omap (M:=list) (op_of ord) ms = omap (M:=list) (op_of ord) ms1 ++ TUpdate (plain_acct g) Processed :: omap (M:=list) (op_of ord) ms2 ++ [TSlot ord (SlotInfo (g_slot g) par 0) Finalized]) as Hops.
  { unfold ms. rewrite omap_app. simpl. by rewrite omap_app. }
  pose proof (acct_of gs ord ms) as Hac.
  assert (forall l, snap_ops gs ++ omap (M:=list) (op_of ord) ms1 ++ l = (snap_ops gs ++ omap (M:=list) (op_of ord) ms1) ++ l) as Hasc by (intros l; by rewrite app_assoc).
  rewrite Hops in *. rewrite Hasc in *.
  assert (forall o a v, o ∈ (snap_ops gs ++ omap (M:=list) (op_of ord) ms1) ++ TUpdate (plain_acct g) Processed :: omap (M:=list) (op_of ord) ms2 ++ [TSlot ord (SlotInfo (g_slot g) par 0) Finalized] -> op_acct o = Some a ->
    data_bytes E (d_data a) = Done v -> exists g', g' ∈ gs ++ accounts_of ms /\ d_pubkey a = g_pubkey g' /\ v = g_data g') as Hcont.
  { intros o a v Hin Ha Hv. destruct (Hac o a Hin Ha) as (g' & Hg' & H2 & H3 & _). exists g'. split; [done|]. split; [done|]. rewrite H3 in Hv. by injection Hv as <-. }
  destruct (C46_served_partial E X (snap_ops gs ++ omap (M:=list) (op_of ord) ms1) (plain_acct g) Processed (omap (M:=list) (op_of ord) ms2) ord (SlotInfo (g_slot g) par 0) ts p (g_data g) r)
    as (b & Hb & B1 & B2 & B3 & B4 & _); try done.
  - rewrite <- app_assoc. by rewrite (run_app_done _ _ _ _ _ _ H0).
  - rewrite <- app_assoc. by apply Forall_app.
  - rewrite <- app_assoc. by apply Forall_app.
  - intros b c Hin Hcf Hk Hs. rewrite <- app_assoc, <- omap_app in Hin. apply elem_of_app in Hin as [Hin|Hin]; [apply snap_in in Hin as (g' & _ & ?); done|].
    apply update_in in Hin as (g' & Hin & -> & ->). apply (Hlast g'); [by apply accounts_in|done|done].
  - intros od si Hin. apply slot_in in Hin as (lv & Hin & ->). apply Hfin. by eexists.
  - intros o Hin. split.
    + intros (a & v & r' & Ha & Hv & Hu' & Hmk). destruct (Hcont o a v Hin Ha Hv) as (g' & Hg' & _ & ->). destruct (Hpk g' Hg') as (_ & Hx & _). by apply (Hx r').
    + intros (a & v & Ha & Hk & Hv & [m' Hu']). destruct (Hcont o a v Hin Ha Hv) as (g' & Hg' & Hk' & ->). destruct (Hpk g' Hg') as (Hx & _). destruct Hx as [Hx _]; [by rewrite <- Hk'|].
      rewrite Hx in Hu'. done.
  - intros o Hin (a & Ha & Hk & Hf). destruct (Hac o a Hin Ha) as (g' & Hg' & H2 & _). destruct (Hpk g' Hg') as (_ & _ & Hx). rewrite H2 in Hk, Hf. by apply Hx.
  - intros o Hin. split.
    + intros (a & v & Ha & Hk & Hv & [m' Hu']). destruct (Hcont o a v Hin Ha Hv) as (g' & Hg' & Hk' & ->). destruct (Hpk g' Hg') as (Hx & _). destruct Hx as [_ Hx]; [by rewrite <- Hk'|].
      rewrite Hx in Hu'. done.
    + intros (a & Ha & Hk & Hcls). destruct (Hac o a Hin Ha) as (g' & Hg' & H2 & _ & H3 & H4). destruct (Hnc g' Hg') as [Hx1 Hx2]; [congruence|]. rewrite H3, H4 in Hcls.
      destruct Hcls as [?|[? ?]]; [done|]. by destruct Hx2.
  - exists b. done.
Qed.
Print Assumptions C77_finalized_partial.

(** Examples: the mint from the snapshot; two versions in slot 10, the older one last; a foreign account; a processed slot message. *)
Definition gtok (pk mint owner amount slot wv : N) : gacct :=
  GAcct pk slot wv 2039280 spl_token_id false 0 GNone (pack_account (SplAccount mint owner amount None Init None 0 None)).
Definition gmint (pk supply : N) : gacct := GAcct pk 0 0 1461600 spl_token_id false 0 GNone (pack_mint (SplMint (Some 5) supply 6 true None)).
Definition gs1 : list gacct := [gmint 1001 50].
Definition ms1 : list gmsg := [GSlotMsg 9 8 LFinalized; GOther; GAccountMsg (GAcct 900 10 1 5 12 false 0 GNone [])].
Definition ms2 : list gmsg := [GAccountMsg (gtok 77 1001 1002 5 10 1); GSlotMsg 10 9 LProcessed; GSlotMsg 10 9 LConfirmed].
Definition strm : list gmsg := ms1 ++ GAccountMsg (gtok 77 1001 1002 7 10 2) :: ms2 ++ [GSlotMsg 10 9 LFinalized].
Definition snap1 : tstore := match ts_run E0 X0 ts_empty (snap_ops gs1) with Done t => t | Panic => ts_empty end.
Definition after (ms : list gmsg) : tstore := match stream_run E0 X0 ord0 snap1 ms with Done t => t | Panic => ts_empty end.
Lemma snap1_run : ts_run E0 X0 ts_empty (snap_ops gs1) = Done snap1.
Proof.
  assert (match ts_run E0 X0 ts_empty (snap_ops gs1) with Done _ => true | Panic => false end = true) as H by (by vm_compute).
  unfold snap1. by destruct (ts_run E0 X0 ts_empty (snap_ops gs1)).
Qed.
Lemma after_run ms : match stream_run E0 X0 ord0 snap1 ms with Done _ => true | Panic => false end = true -> stream_run E0 X0 ord0 snap1 ms = Done (after ms).
Proof. unfold after. by destruct (stream_run E0 X0 ord0 snap1 ms). Qed.
Lemma gtok_of pk mint owner amount slot wv : mint < 2 ^ 256 -> owner < 2 ^ 256 -> amount < 2 ^ 64 ->
  token_of (gtok pk mint owner amount slot wv) TokenP (SplAccount mint owner amount None Init None 0 None).
Proof. intros H1 H2 H3. split; [done|]. split; [done|]. split; [|done]. repeat split; try done; intros q; by destruct 1. Qed.
Ltac each H := unfold gs1, strm, ms1, ms2 in H; simpl in H; rewrite ?elem_of_cons, ?elem_of_nil in H; destruct_or! H; subst.
Example C77_processed_example : let g := gtok 77 1001 1002 7 10 2 in
  Forall plain (ms1 ++ [GAccountMsg g]) /\ Forall msg_ok (ms1 ++ [GAccountMsg g]) /\ ts_run E0 X0 ts_empty (snap_ops gs1) = Done snap1 /\
  stream_run E0 X0 ord0 snap1 (ms1 ++ [GAccountMsg g]) = Done (after (ms1 ++ [GAccountMsg g])) /\ token_of g TokenP (SplAccount 1001 1002 7 None Init None 0 None) /\
  (forall s, confirmed ms1 s -> s < 10) /\ (forall g', g' ∈ accounts_of ms1 -> g_pubkey g' = 77 -> g_slot g' < 10) /\
  is_Some (mint_state (ts_log E0 X0 ts_empty (snap_ops gs1 ++ omap (M:=list) (op_of ord0) ms1)).*1 1001) /\
  amount_of (ts_get (after (ms1 ++ [GAccountMsg g])) 77 Processed) = Some 7.
Proof.
  intros g. split; [by repeat constructor|]. split; [by repeat constructor|]. split; [apply snap1_run|]. split; [apply after_run; by vm_compute|]. split; [by apply gtok_of|].
  split. { intros s (p & Hin). each Hin; done. } split. { intros g' Hin Hk. each Hin; done. } split; [vm_compute; eauto|by vm_compute].
Qed.
Example C77_finalized_example : Forall plain strm /\ Forall msg_ok strm /\ stream_run E0 X0 ord0 snap1 strm = Done (after strm) /\
  (forall s, finalized ms2 s -> s < 10) /\ (forall g', g' ∈ accounts_of (ms1 ++ ms2) -> g_pubkey g' = 77 -> g_slot g' = 10 -> g_wv g' < 2) /\
  private_key (gs1 ++ accounts_of strm) 77 /\ never_closed (gs1 ++ accounts_of strm) 1001 /\
  is_Some (mint_state (ts_log E0 X0 ts_empty (snap_ops gs1 ++ omap (M:=list) (op_of ord0) strm)).*1 1001) /\
  amount_of (ts_get (after strm) 77 Finalized) = Some 7.
Proof.
  split; [by repeat constructor|]. split; [by repeat constructor|]. split; [apply after_run; by vm_compute|]. split. { intros s (p & Hin). each Hin; done. }
  split. { intros g' Hin Hk Hs. each Hin; try done. } split; [|split; [|split; [vm_compute; eauto|by vm_compute]]].
  - intros g Hin. each Hin; (split; [intros Hk; try done; split; by vm_compute|split; [intros r Hr; vm_compute in Hr; try done; injection Hr as <-; done|intros Hk; try done; by vm_compute]]).
  - intros g Hin Hk. each Hin; try done. split; [done|by left].
Qed.

(** ** Finding: compressed messages.  The payload of a compressed message is compressed already; it is compressed once more and taken for
    the account's data.  The codec is the LZ4 block format with its size prefix. *)
Definition EZ : ext := Ext (fun _ => None) (fun _ => None) (fun _ d => (fun b => le 4 (lenN d) ++ b) <$> lx_block lz4_sample d) (lz4_decompress lz4_sample) (fun _ _ => None) (fun _ => None).
Lemma EZ_lawful lv d b : lenN d <= 0x7E000000 -> x_lz4c EZ lv d = Some b -> x_lz4d EZ b = Some d.
Proof.
  intros Hd H. cbn [EZ x_lz4c x_lz4d] in *. apply fmap_Some in H as (c & Hc & ->). destruct (sample_lawful d c (lenN d) Hc) as [Hl _].
  unfold lz4_decompress. rewrite app_length, le_length. simpl Nat.ltb. rewrite take_app_alt, drop_app_alt by (by rewrite le_length).
  rewrite unle_le_small by (change (256 ^ N.of_nat 4) with 4294967296; lia). rewrite (proj2 (N.ltb_ge _ _)) by done. apply Hl. lia.
Qed.
Definition squeezed (g : gacct) : gacct :=
  GAcct (g_pubkey g) (g_slot g) (g_wv g) (g_lamports g) (g_owner g) (g_exec g) (g_rent g) (GLz4 8) (default [] (x_lz4c EZ 8 (g_data g))).
Definition as_sol (g : gacct) : sol_account := SolAccount (g_lamports g) (g_data g) (g_owner g) (g_exec g) (g_rent g).
Definition run_z (ms : list gmsg) : tstore := match stream_run EZ X0 ord0 snap1 ms with Done t => t | Panic => ts_empty end.
Lemma run_z_run ms : match stream_run EZ X0 ord0 snap1 ms with Done _ => true | Panic => false end = true -> stream_run EZ X0 ord0 snap1 ms = Done (run_z ms).
Proof. unfold run_z. by destruct (stream_run EZ X0 ord0 snap1 ms). Qed.
(** The same token account, reported without and with compression: in the second case the store ignores it. *)
Theorem C77_compressed_refuted : exists g g' A, reports EZ g A /\ reports EZ g' A /\ g_comp g = GNone /\ g_comp g' = GLz4 8 /\
  token_of g TokenP (SplAccount 1001 1002 7 None Init None 0 None) /\
  (exists ts ts', stream_run EZ X0 ord0 snap1 [GAccountMsg g] = Done ts /\ stream_run EZ X0 ord0 snap1 [GAccountMsg g'] = Done ts' /\
    amount_of (ts_get ts 77 Processed) = Some 7 /\ ts_get ts' 77 Processed = Done (ROk None)) /\
  exists a, msg_op EZ ord0 (GAccountMsg g') = Done (Some (TUpdate a Processed)) /\ to_solana EZ (d_account a) <> Done A.
Proof.
  set (g := gtok 77 1001 1002 7 10 2). exists g, (squeezed g), (as_sol g). split; [by repeat split|]. split.
  { do 4 (split; [done|]). simpl g_comp. cbn iota. by vm_compute. }
  split; [done|]. split; [done|]. split; [by apply gtok_of|]. split.
  - exists (run_z [GAccountMsg g]), (run_z [GAccountMsg (squeezed g)]). split; [apply run_z_run; by vm_compute|]. split; [apply run_z_run; by vm_compute|].
    split; by vm_compute.
  - eexists. split; [by vm_compute|]. vm_compute. done.
Qed.
Print Assumptions C77_compressed_refuted.
