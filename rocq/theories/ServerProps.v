(** The server from the archive and the messages to the answer (C100). *)
From Verif Require AvecProps StreamProps RpcProps.
From Verif Require Import Base SMap DataModel BincodeModel BincodeProofs FilterModel StoreModel TokenModel TokenProofs TokenProps SplModel SplProofs TokenUtilsModel
  TokenUtilsProofs TokenPendModel TokenPendSpec TokenPendProofs TokenPendProps TokenUtilsProps TokenStoreModel TokenStoreSpec TokenStoreProofs TokenStoreViews TokenStoreProps TokenStoreOrder
  TokenStoreQuery TokenStoreQueryProps TokenStoreSafe TokenStoreServed TokenLedgerSpec TokenLedgerProofs TokenLedgerKey TokenLedgerProps TokenLedgerQueryProps TokenLedgerNotifyProps TokenLedgerEdge TokenLedgerSafeProps
  DispatchModel AvecModel AvecSpec StreamModel StreamSpec ServerModel ServerSpec.
From Verif Require RpcModel.
Import RpcModel(rpc_account, rpc_gpa, acc_config, gpa_config, ac_encoding, ac_slice, ac_commitment, gc_filters, gc_account, gc_with_context, u_owner, u_data, u_space, UText, UBase64, UBase64Zstd, RContext, RPlain, ui_account, convert).
#[local] Arguments le : simpl never.
#[local] Arguments unle : simpl never.
#[local] Opaque to_bytes from_bytes peek_pubkey.

(** ** Specification *)
(** The archive: some entries that do not matter, the manifest, and the storage files with the accounts [ls], as the validator wrote them. *)
Definition archive_holds (fuel : nat) (dec : bytes -> option index_t) (es : list (option entry)) (ls : list (list vacct)) : Prop :=
  exists ix pre man files, es = map Some (pre ++ man :: files) /\ Forall harmless_entry pre /\ manifest_entry man /\ dec (en_data man) = Some ix /\ Forall2 (AvecProps.archived ix fuel) files ls.
(** What is shown of an account version: owner, length and the requested part of the data. *)
Definition pictured (E : ext) (cfg : option acc_config) (a : acct) (u : ui_account) : Prop :=
  u_owner u = d_owner a /\ exists v, data_bytes E (d_data a) = Done v /\ u_space u = lenN v /\
    (cfg ≫= ac_encoding = None \/ cfg ≫= ac_encoding = Some UBase64 \/ cfg ≫= ac_encoding = Some UBase64Zstd ->
     exists x, u_data u = UText x (default UBase64 (cfg ≫= ac_encoding)) /\ RpcProps.wanted v (cfg ≫= ac_slice) x).
(** The answer to a request for one account whose newest version is [o]: closed accounts do not exist. *)
Definition info_of (E : ext) (L : tledger) (cfg : option acc_config) (o : option acct) (ans : RpcModel.rpc_answer (option ui_account)) : Prop :=
  match o with
  | None => ans = RContext 0 None
  | Some a =>
      (closed a /\ ans = RContext 0 None) \/
      (~ closed a /\ exists slot u, ans = RContext slot (Some u) /\ pictured E cfg a u /\
         ((a ∈ tl_writes L /\ ~ is_final L (d_slot a) /\ slot = d_slot a) \/ (tcounts L Finalized a /\ slot = default 0 (tl_fin L))))
  end.
(** The answer [k] to a request for the token accounts of an owner and a mint: each account once; each is shown as its newest version, open and of that
    owner and mint; and every such account is there, provided it is open in the finalized ledger. *)
Definition lists (E : ext) (L : tledger) (c : commitment) (cfg : option acc_config) (o mo : option pubkey) (k : list (pubkey * ui_account)) : Prop :=
  NoDup k.*1 /\
  (forall pk u, (pk, u) ∈ k -> exists a, in_tledger L pk c (Some a) /\ holds_for E a o mo /\ ~ closed a /\ pictured E cfg a u) /\
  (forall pk f a, in_tledger L pk Finalized (Some f) -> ~ closed f -> in_tledger L pk c (Some a) -> holds_for E a o mo -> pk ∈ k.*1).

(** ** The feed is an orderly stream *)
Lemma feed_base E base ms L : feed E base ms L -> tl_base L = base.
Proof. by induction 1. Qed.
Lemma loads_orderly E base : Forall (fun a => d_slot a = 0 /\ d_wv a = 0) base -> t_orderly E (TInit <$> base) (TLedger base [] ∅ [] None).
Proof.
  induction base as [|a base IH] using rev_ind; intros H; [constructor|]. apply Forall_app in H as [Hb Ha]. rewrite Forall_singleton in Ha. rewrite fmap_app. eapply to_snoc; [by apply IH|].
  refine (te_load _ (TLedger base [] ∅ [] None) a _ _ _); try done. intros b Hin _. rewrite Forall_forall in Hb. specialize (Hb b Hin). right. lia.
Qed.
Lemma feed_orderly E ord base ms L : Forall (fun a => d_slot a = 0 /\ d_wv a = 0) base -> feed E base ms L -> t_orderly E (deliveries_of ord base ms) L.
Proof.
  intros Hb. unfold deliveries_of. induction 1 as [Hn|ms L g Hf IH H1 H2 H3|ms L s p Hf IH H1 H2 H3|ms L s p Hf IH H1 H2 H3|ms L s p Hf IH H1 H2|ms L m Hf IH Hi]; rewrite ?omap_app; cbn [omap list_omap call_of]; rewrite ?app_assoc.
  - rewrite app_nil_r. by apply loads_orderly.
  - eapply to_snoc; [done|]. constructor; try done. intros b Hin _. rewrite (feed_base _ _ _ _ Hf) in Hin. rewrite Forall_forall in Hb. destruct (Hb b Hin) as [-> _]. done.
  - eapply to_snoc; [done|]. refine (te_confirm _ L ord (SlotInfo s p 0) _ _ _); done.
  - eapply to_snoc; [done|]. by apply te_confirm_again.
  - eapply to_snoc; [done|]. refine (te_finalize _ L ord (SlotInfo s p 0) _ _); done.
  - assert (call_of ord m = None) as ->; [|by rewrite app_nil_r]. destruct m as [g|s p lv|]; [done| |done]. destruct Hi as [? ?]. by destruct lv.
Qed.
Lemma snapshot_zero ls : Forall (fun a => d_slot a = 0 /\ d_wv a = 0) (snapshot_accounts ls).
Proof. apply Forall_forall. intros a Ha. by apply elem_of_list_fmap in Ha as (x & -> & _). Qed.
Lemma call_of_eq ord (ms : list gmsg) : omap (call_of ord) ms = omap (StreamProps.op_of ord) ms.
Proof. reflexivity. Qed.
Lemma serve_run fuel E X dec ord es ls ms : archive_holds fuel dec es ls -> Forall plain ms ->
  serve fuel E X dec ord es ms = Some (ts_run E X ts_empty (deliveries_of ord (snapshot_accounts ls) ms)).
Proof.
  intros (ix & pre & man & files & -> & Hpre & Hman & Hdec & Hf) Hp. unfold serve. rewrite (AvecProps.C67_load_order_partial fuel E X dec ix pre man files ls ts_empty Hpre Hman Hdec Hf).
  unfold deliveries_of, snapshot_accounts. rewrite <- list_fmap_compose, call_of_eq.
  destruct (ts_run E X ts_empty (TInit ∘ as_acct <$> _)) as [ts|] eqn:Hr.
  - rewrite (StreamProps.stream_ops E X ord ms ts Hp). by rewrite (run_app_done _ _ _ _ _ _ Hr).
  - f_equal. symmetry. rewrite AvecProps.ts_run_app, Hr. done.
Qed.

(** ** Showing an account *)
Lemma wants_fun l c : RpcProps.wants l c -> c = RpcModel.commitment_of (default RpcModel.LFinalized l).
Proof. destruct c; simpl; intros H; destruct_or! H; by subst l. Qed.
Lemma shown_as E parse cfg a b v : d_owner b = d_owner a -> data_bytes E (d_data b) = data_bytes E (d_data a) -> data_bytes E (d_data a) = Done v ->
  exists u, convert E parse b cfg = Done u /\ pictured E cfg a u.
Proof.
  intros Ho Hd Hv. destruct (convert E parse b cfg) as [u|] eqn:Hu; [|unfold convert, to_solana, d_data in *; by rewrite Hd, Hv in Hu]. exists u. split; [done|].
  assert (u_owner u = d_owner b /\ u_space u = lenN v) as [Hu1 Hu2].
  { unfold convert, to_solana in Hu. unfold d_data in *. rewrite Hd, Hv in Hu. cbn [mbind res_bind] in Hu. by injection Hu as <-. }
  split; [congruence|]. exists v. split; [done|]. split; [done|]. intros He.
  destruct (RpcProps.C70_base64_exact E parse b cfg u v Hu) as (_ & _ & _ & _ & _ & H); [unfold FilterSpec.plain; congruence|done|done].
Qed.

Section server.
Context (fuel : nat) (E : ext) (X : lz4x) (F : filt) (dec : bytes -> option index_t) (ord : drain) (parse : pubkey -> pubkey -> bytes -> option bytes) (pk_of : bytes -> option pubkey).
(** ** C100, one account.  The server starts and answers, and the answer is the newest version of the account in the ledger at the commitment asked for. *)
Theorem C100_account_info_partial es ls ms L key pk cfg c : archive_holds fuel dec es ls -> Forall plain ms -> feed E (snapshot_accounts ls) ms L ->
  let l := deliveries_of ord (snapshot_accounts ls) ms in settled E Finalized l -> token_account_key E l pk -> mints_known E l L pk ->
  pk_of key = Some pk -> RpcProps.wants (cfg ≫= ac_commitment) c ->
  exists ts o ans, serve fuel E X dec ord es ms = Some (Done ts) /\ in_tledger L pk c o /\
    rpc_account E parse pk_of (child_iface E X F ord) (CTok ts) key cfg = Done ans /\ info_of E L cfg o ans.
Proof.
  intros Hes Hp Hf l Hse Hk Hm Hkey Hc. pose proof (feed_orderly E ord _ _ _ (snapshot_zero ls) Hf) as Ho.
  destruct (C98_reads_show_ledger_partial E X l L pk c Ho Hse Hk Hm) as (ts & o & x & Hr & Hin & Hg & Ha).
  assert (forall a, o = Some a -> exists v, data_bytes E (d_data a) = Done v) as Hread.
  { intros a ->. destruct (ledger_stream E l L pk c a Ho Hin) as (op & Hop & Hoa & _). destruct (se_read _ _ _ Hse op a Hop Hoa) as (v & Hv & _). eauto. }
  exists ts, o. unfold rpc_account. rewrite Hkey, <- (wants_fun _ _ Hc). cbn [child_iface i_get]. rewrite Hg. cbn [mbind res_bind].
  rewrite (serve_run fuel E X dec ord es ls ms Hes Hp). change (ts_run E X ts_empty (deliveries_of ord (snapshot_accounts ls) ms)) with (ts_run E X ts_empty l). rewrite Hr.
  destruct o as [a|]; simpl in Ha.
  - destruct Ha as [[Hcl ->]|[Hcl (b & -> & H1 & H2 & H3 & H4)]].
    + eexists. split; [done|]. split; [done|]. split; [done|]. left. done.
    + destruct (Hread a eq_refl) as [v Hv]. destruct (shown_as E parse cfg a b v H2 H3 Hv) as (u & Hu & Hpic). rewrite Hu. eexists. split; [done|]. split; [done|]. split; [done|].
      right. split; [done|]. exists (d_slot b), u. split; [done|]. split; [done|]. done.
  - subst x. eexists. done.
Qed.

(** ** C100, the token accounts of an owner or a mint. *)
Lemma converted rs o mo p : requests E rs o mo -> exists cs, RpcModel.convert_filters E rs = Done cs /\ token_query p cs /\ pins cs 32 o /\ pins cs 0 mo.
Proof.
  intros [R1 R2 R3 R4 R5].
  assert (exists cs, RpcModel.convert_filters E rs = Done cs /\ (forall n, Datasize n ∈ cs <-> RDataSize n ∈ rs) /\
    (forall off b, MemcmpC (Memcmp off (MBytes b)) ∈ cs <-> exists d, RMemcmp off d ∈ rs /\ says E d b)) as (cs & Hcs & H1 & H2).
  { clear R3 R4 R5. induction rs as [|r rs IH]; [exists []; split; [done|]; split; intros; split; [by intros ?%elem_of_nil..|by intros (d & ?%elem_of_nil & _)]|].
    destruct IH as (cs & Hcs & H1 & H2); [intros off d Hd; apply (R1 off); by right|set_solver|]. cbn [RpcModel.convert_filters]. destruct r as [n|off d|]; [| |by destruct R2; left].
    - cbn [from_rpc mbind res_bind]. rewrite Hcs. cbn [mbind res_bind]. eexists. split; [done|]. split; [intros n'; rewrite !elem_of_cons, H1; naive_solver|].
      intros off b. rewrite elem_of_cons, H2. split; [intros [?|(d & ? & ?)]; [done|exists d; split; [by right|done]]|]. intros (d & [?|?]%elem_of_cons & ?); [done|right; eauto].
    - cbn [from_rpc mbind res_bind]. rewrite Hcs. cbn [mbind res_bind]. eexists. split; [done|]. split; [intros n'; rewrite !elem_of_cons, H1; naive_solver|].
      destruct (R1 off d) as [b0 Hb0]; [left|]. assert (rpc_memcmp_bytes E d = Some b0) as -> by (destruct d; simpl in *; congruence). cbn [default].
      assert (forall b, says E d b -> b = b0) as Hfun by (intros b Hb; destruct d; simpl in *; congruence).
      intros off' b. rewrite elem_of_cons, H2. split.
      + intros [[= -> ->]|(d' & ? & ?)]; [exists d; split; [left|done]|exists d'; split; [by right|done]].
      + intros (d' & [[= -> ->]|?]%elem_of_cons & Hs); [left; by rewrite (Hfun b Hs)|right; eauto]. }
  assert (forall off x, names_at E rs off x -> pins cs off x) as Hpins.
  { intros off [q|]; simpl; setoid_rewrite H2; [intros (Hq & Hd & Hall); split; [done|]; split; [done|]; intros b (d & Hd' & Hs); by eapply Hall|]. intros Hall b (d & Hd & Hs). by eapply Hall. }
  exists cs. split; [done|]. split; [left; destruct R3 as [R3 R3']; split; [by apply H1|intros n Hn; by apply R3', H1]|]. split; by apply Hpins.
Qed.
Lemma keyed_lists cfg L c o mo r : (forall a, a ∈ tl_base L \/ a ∈ tl_writes L -> exists v, data_bytes E (d_data a) = Done v) -> shows_ledger E L c o mo r ->
  exists k, RpcModel.keyed E parse r 0 cfg = Done k /\ lists E L c cfg o mo k.
Proof.
  intros Hread (S1 & S2 & S3).
  assert (forall b, b ∈ r -> exists a u, in_tledger L (d_pubkey b) c (Some a) /\ holds_for E a o mo /\ ~ closed a /\ convert E parse b cfg = Done u /\ pictured E cfg a u) as Hone.
  { intros b Hb. destruct (S2 b Hb) as (a & Ha & Hh & [[_ ?]|[Hcl (b' & [= <-] & H1 & H2 & H3 & _)]]); [done|]. destruct (Hread a) as [v Hv]; [destruct Ha as [[[?|[? _]] _] _]; tauto|].
    destruct (shown_as E parse cfg a b v H2 H3 Hv) as (u & Hu & Hpic). by exists a, u. }
  assert (exists k, RpcModel.keyed E parse r 0 cfg = Done k /\ k.*1 = d_pubkey <$> r /\ forall pk u, (pk, u) ∈ k -> exists b, b ∈ r /\ d_pubkey b = pk /\ convert E parse b cfg = Done u) as (k & Hk & Hk1 & Hk2).
  { clear S1 S2 S3. induction r as [|b r IH]; [exists []; split; [done|]; split; [done|]; by intros pk u ?%elem_of_nil|]. destruct IH as (k & Hk & Hk1 & Hk2); [intros b' Hb'; apply Hone; by right|].
    destruct (Hone b) as (a & u & _ & _ & _ & Hu & _); [left|]. cbn [RpcModel.keyed]. rewrite (proj2 (N.leb_le _ _)) by lia. rewrite Hu. cbn [mbind res_bind]. rewrite Hk. cbn [mbind res_bind].
    eexists. split; [done|]. split; [by rewrite fmap_cons, Hk1|]. intros pk u' [[= -> ->]|Hin]%elem_of_cons; [exists b; split; [left|done]|]. destruct (Hk2 pk u' Hin) as (b' & ? & ?). exists b'. split; [by right|done]. }
  exists k. split; [done|]. split; [by rewrite Hk1|]. split.
  - intros pk u Hin. destruct (Hk2 pk u Hin) as (b & Hb & <- & Hu). destruct (Hone b Hb) as (a & u' & H1 & H2 & H3 & H4 & H5). exists a. split_and!; try done. congruence.
  - intros pk f a H1 H2 H3 H4. destruct (S3 pk f a H1 H2 H3 H4) as (b & Hb & <-). rewrite Hk1. by apply elem_of_list_fmap_1.
Qed.
Lemma program_answer ts rs p prog cfg c r o mo L : (forall a, a ∈ tl_base L \/ a ∈ tl_writes L -> exists v, data_bytes E (d_data a) = Done v) -> pk_of prog = Some p -> gc_filters cfg = Some rs -> gc_with_context cfg <> Some true ->
  RpcProps.wants (ac_commitment (gc_account cfg)) c -> (exists cs, RpcModel.convert_filters E rs = Done cs /\ ts_gpa E ts p (Some cs) c = Done (ROk r)) -> shows_ledger E L c o mo r ->
  exists k, rpc_gpa E parse pk_of (child_iface E X F ord) (CTok ts) prog (Some cfg) = Done (RPlain k) /\ lists E L c (Some (gc_account cfg)) o mo k.
Proof.
  intros Hread Hpk Hrs Hctx Hc (cs & Hcs & Hg) Hsh. destruct (keyed_lists (Some (gc_account cfg)) L c o mo r Hread Hsh) as (k & Hk & Hl). exists k. split; [|done].
  unfold rpc_gpa. cbn [mbind option_bind]. rewrite Hpk, Hrs, Hcs. cbn [mbind res_bind]. rewrite <- (wants_fun _ _ Hc). cbn [child_iface i_gpa]. rewrite Hg. cbn [mbind res_bind].
  assert (default false (gc_with_context cfg) = false) as Hcx by (destruct (gc_with_context cfg) as [[]|]; done). rewrite Hcx. cbn [default]. change (gc_account <$> Some cfg) with (Some (gc_account cfg)). rewrite Hk. done.
Qed.
Theorem C100_owner_accounts_partial es ls ms L rs p prog cfg c o mo : archive_holds fuel dec es ls -> Forall plain ms -> feed E (snapshot_accounts ls) ms L ->
  let l := deliveries_of ord (snapshot_accounts ls) ms in settled E Finalized l -> tidy E l -> all_keys E l L -> told_apart L -> keeps_owner E l ->
  (mo = None \/ keeps_mint E l) -> (forall m, mo = Some m -> mint_known E l L m) ->
  pk_of prog = Some p -> p = spl_token_id \/ p = spl_2022_id -> gc_filters cfg = Some rs -> requests E rs (Some o) mo -> gc_with_context cfg <> Some true -> RpcProps.wants (ac_commitment (gc_account cfg)) c ->
  exists ts k, serve fuel E X dec ord es ms = Some (Done ts) /\ rpc_gpa E parse pk_of (child_iface E X F ord) (CTok ts) prog (Some cfg) = Done (RPlain k) /\
    lists E L c (Some (gc_account cfg)) (Some o) mo k.
Proof.
  intros Hes Hp Hf l Hse Htd Hall Hta Hko Hkm Hmk Hpk Hpp Hrs Hrq Hctx Hc. pose proof (feed_orderly E ord _ _ _ (snapshot_zero ls) Hf) as Ho.
  destruct (C98_orderly_streams_run_partial E X l L Ho Hse) as (ts & Hr & Hctr & _). destruct (converted rs (Some o) mo p Hrq) as (cs & Hcs & Hq & Hp1 & Hp2).
  destruct (C93_owner_queries_show_ledger_partial E X l L ts p cs o mo c Ho (se_ops _ _ _ Hse) Hr Hctr Htd Hall Hta Hko Hkm Hmk Hpp Hq Hp1 Hp2) as (r & Hg & Hsh).
  destruct (program_answer ts rs p prog cfg c r (Some o) mo L) as (k & Hk & Hl); try done; [|eauto|].
  { intros a Ha. destruct (in_stream E l L Ho a Ha) as (op & Hop & Hoa). destruct (se_read _ _ _ Hse op a Hop Hoa) as (v & Hv & _). eauto. }
  exists ts, k. split; [|done]. rewrite (serve_run fuel E X dec ord es ls ms Hes Hp). f_equal. exact Hr.
Qed.
Theorem C100_mint_accounts_partial es ls ms L rs p prog cfg c m : archive_holds fuel dec es ls -> Forall plain ms -> feed E (snapshot_accounts ls) ms L ->
  let l := deliveries_of ord (snapshot_accounts ls) ms in settled E Finalized l -> tidy E l -> all_keys E l L -> told_apart L -> keeps_mint E l ->
  pk_of prog = Some p -> p = spl_token_id \/ p = spl_2022_id -> gc_filters cfg = Some rs -> requests E rs None (Some m) -> gc_with_context cfg <> Some true -> RpcProps.wants (ac_commitment (gc_account cfg)) c ->
  exists ts k, serve fuel E X dec ord es ms = Some (Done ts) /\ rpc_gpa E parse pk_of (child_iface E X F ord) (CTok ts) prog (Some cfg) = Done (RPlain k) /\
    lists E L c (Some (gc_account cfg)) None (Some m) k.
Proof.
  intros Hes Hp Hf l Hse Htd Hall Hta Hkm Hpk Hpp Hrs Hrq Hctx Hc. pose proof (feed_orderly E ord _ _ _ (snapshot_zero ls) Hf) as Ho.
  destruct (C98_orderly_streams_run_partial E X l L Ho Hse) as (ts & Hr & Hctr & _). destruct (converted rs None (Some m) p Hrq) as (cs & Hcs & Hq & Hp1 & Hp2).
  destruct (C93_mint_queries_show_ledger_partial E X l L ts p cs m c Ho (se_ops _ _ _ Hse) Hr Hctr Htd Hall Hta Hkm (settled_stay _ _ _ Hse) Hpp Hq Hp1 Hp2) as (r & Hg & Hsh).
  destruct (program_answer ts rs p prog cfg c r None (Some m) L) as (k & Hk & Hl); try done; [|eauto|].
  { intros a Ha. destruct (in_stream E l L Ho a Ha) as (op & Hop & Hoa). destruct (se_read _ _ _ Hse op a Hop Hoa) as (v & Hv & _). eauto. }
  exists ts, k. split; [|done]. rewrite (serve_run fuel E X dec ord es ls ms Hes Hp). f_equal. exact Hr.
Qed.
End server.
Print Assumptions C100_account_info_partial.
Print Assumptions C100_owner_accounts_partial.
Print Assumptions C100_mint_accounts_partial.

(** ** Example.  The archive holds account 77, its mint 1001 in a later file, and an account of another program; account 77 changes in slot 10, which is
    finalized, and in slot 11, in which account 80 is opened. *)
Definition srv_ls : list (list vacct) := [[AvecProps.tok_at 5]; [AvecProps.mint1]; [AvecProps.a1]].
Definition f_mint : bytes := AvecProps.enc_of AvecProps.mint1.
Definition f_other : bytes := AvecProps.enc_of AvecProps.a1.
Definition srv_ix : index_t := {[ 10 := [(4, lenN AvecProps.f_old)]; 8 := [(1, lenN f_mint)]; 9 := [(2, lenN f_other)] ]}.
Definition srv_dec (_ : bytes) : option index_t := Some srv_ix.
Definition srv_files : list entry :=
  [AvecProps.acc_file (AvecProps.str [49; 48; 46; 52]) AvecProps.f_old; AvecProps.acc_file (AvecProps.str [56; 46; 49]) (f_mint ++ replicate 50 "000"%byte); AvecProps.acc_file (AvecProps.str [57; 46; 50]) f_other].
Definition srv_archive : list (option entry) := map Some ([Entry [CNormal (AvecProps.str [118])] []] ++ Entry (AvecProps.slot_dir (AvecProps.str [57])) [] :: srv_files).
Definition srv_tok (pk mint owner amount slot wv : N) : gacct :=
  GAcct pk slot wv 2039280 spl_token_id false (2 ^ 64 - 1) GNone (pack_account (SplAccount mint owner amount None Init None 0 None)).
Definition srv_ms : list gmsg :=
  [GAccountMsg (srv_tok 77 1001 1002 6 10 1); GSlotMsg 10 9 LProcessed; GSlotMsg 10 9 LConfirmed; GSlotMsg 10 9 LFinalized; GOther;
   GAccountMsg (srv_tok 77 1001 1002 8 11 2); GAccountMsg (srv_tok 80 1001 1002 3 11 3)].
Definition srv_ops : list tsop :=
  [TInit (tokd 77 1001 1002 5 0 0); TInit (mintd 1001 50 0 0); TUpdate (tokd 77 1001 1002 6 10 1) Processed; TSlot ord0 (SlotInfo 10 9 0) Confirmed; TSlot ord0 (SlotInfo 10 9 0) Finalized;
   TUpdate (tokd 77 1001 1002 8 11 2) Processed; TUpdate (tokd 80 1001 1002 3 11 3) Processed].
Lemma srv_deliveries : deliveries_of ord0 (snapshot_accounts srv_ls) srv_ms = srv_ops.
Proof. vm_compute. reflexivity. Qed.
Lemma srv_holds : archive_holds 10 srv_dec srv_archive srv_ls.
Proof.
  exists srv_ix, [Entry [CNormal (AvecProps.str [118])] []], (Entry (AvecProps.slot_dir (AvecProps.str [57])) []), srv_files. split; [done|]. split; [constructor; [by split|constructor]|].
  split; [exists (AvecProps.str [57]), 9; split; [done|]; split; [split; [exact (dec_one 9 eq_refl)|by vm_compute]|done]|]. split; [done|].
  constructor; [|constructor; [|constructor; [|constructor]]].
  - exists 10, 4, AvecProps.f_old, []. split; [exists (AvecProps.str [49; 48]), (AvecProps.str [52]); split; [done|]|].
    { split; [split; [exact (dec_snoc _ _ 0 (dec_one 1 eq_refl) eq_refl)|by vm_compute]|]. split; [split; [exact (dec_one 4 eq_refl)|by vm_compute]|]. done. }
    split; [exists [(4, lenN AvecProps.f_old)]; split; [by vm_compute|]; split; [left|apply (bool_decide_unpack _); by vm_compute]|].
    split; [repeat constructor; by vm_compute|]. split; [apply w_last, AvecProps.enc_of_ok|]. split; [by rewrite app_nil_r|]. split; by vm_compute.
  - exists 8, 1, f_mint, (replicate 50 "000"%byte). split; [exists (AvecProps.str [56]), (AvecProps.str [49]); split; [done|]|].
    { split; [split; [exact (dec_one 8 eq_refl)|by vm_compute]|]. split; [split; [exact (dec_one 1 eq_refl)|by vm_compute]|]. done. }
    split; [exists [(1, lenN f_mint)]; split; [by vm_compute|]; split; [left|apply (bool_decide_unpack _); by vm_compute]|].
    split; [repeat constructor; by vm_compute|]. split; [apply w_last, AvecProps.enc_of_ok|]. split; [done|]. split; by vm_compute.
  - exists 9, 2, f_other, []. split; [exists (AvecProps.str [57]), (AvecProps.str [50]); split; [done|]|].
    { split; [split; [exact (dec_one 9 eq_refl)|by vm_compute]|]. split; [split; [exact (dec_one 2 eq_refl)|by vm_compute]|]. done. }
    split; [exists [(2, lenN f_other)]; split; [by vm_compute|]; split; [left|apply (bool_decide_unpack _); by vm_compute]|].
    split; [repeat constructor; by vm_compute|]. split; [apply w_last, AvecProps.enc_of_ok|]. split; [by rewrite app_nil_r|]. split; by vm_compute.
Qed.
Lemma srv_plain : Forall plain_acct (given srv_ops).
Proof. repeat constructor. Qed.
Lemma srv_feed : feed E0 (snapshot_accounts srv_ls) srv_ms (tledger_at srv_ops).
Proof.
  assert (snapshot_accounts srv_ls = [tokd 77 1001 1002 5 0 0; mintd 1001 50 0 0]) as -> by (vm_compute; reflexivity).
  set (base := [tokd 77 1001 1002 5 0 0; mintd 1001 50 0 0]).
  set (g1 := srv_tok 77 1001 1002 6 10 1). set (g2 := srv_tok 77 1001 1002 8 11 2). set (g3 := srv_tok 80 1001 1002 3 11 3).
  assert (tledger_at srv_ops = TLedger base [reported g1; reported g2; reported g3] ∅ [(10, 9)] (Some 10)) as -> by (vm_compute; reflexivity).
  assert (forall L s, is_confirmed L s -> tl_conf L = [(10, 9)] -> s = 10) as Hc by (intros L s [p Hp] H; rewrite H in Hp; apply elem_of_list_singleton in Hp; congruence).
  assert (forall L s, is_root L s -> tl_conf L = [(10, 9)] -> s = 9) as Hr by (intros L s [t Ht] H; rewrite H in Ht; simpl in Ht; congruence).
  assert (feed E0 base [] (TLedger base [] ∅ [] None)) as F0 by (constructor; apply (bool_decide_unpack _); by vm_compute).
  pose proof (fd_account E0 base _ _ g1 F0) as F1. feed specialize F1; [done|by intros [p ?%elem_of_nil]|by intros [t Ht]|].
  pose proof (fd_ignored E0 base _ _ (GSlotMsg 10 9 LProcessed) F1) as F2. feed specialize F2; [done|].
  pose proof (fd_confirm E0 base _ _ 10 9 F2) as F3. feed specialize F3; [done| | |].
  { right. exists (reported g1). split; [left|]. split; [done|]. split; [by left|]. right. exists TokenP, (pack_account (SplAccount 1001 1002 6 None Init None 0 None)).
    split; [apply (tokd_live 77 1001 1002 6 10 1)|]. left. eexists. by apply tokd_unpack. }
  { intros [H|(a & Ha & Hs)]; [set_solver|]. apply elem_of_list_singleton in Ha. by subst a. }
  pose proof (fd_finalize E0 base _ _ 10 9 F3) as F4. feed specialize F4; [left|done|].
  pose proof (fd_ignored E0 base _ _ GOther F4) as F5. feed specialize F5; [done|].
  pose proof (fd_account E0 base _ _ g2 F5) as F6. feed specialize F6; [done|intros H; by apply Hc in H|intros H; by apply Hr in H|].
  pose proof (fd_account E0 base _ _ g3 F6) as F7. feed specialize F7; [done|intros H; by apply Hc in H|intros H; by apply Hr in H|].
  exact F7.
Qed.
Lemma srv_settled : settled E0 Finalized srv_ops.
Proof.
  apply (settled_check Finalized [1001]); [done|by vm_compute|apply srv_plain|repeat constructor; simpl; try done; intros m; done|by vm_compute|done|by vm_compute..].
Qed.
Lemma srv_keys : all_keys E0 srv_ops (tledger_at srv_ops).
Proof. apply keys_checked; [apply srv_plain|by vm_compute]. Qed.
Definition srv_store : tstore := match serve 10 E0 X0 srv_dec ord0 srv_archive srv_ms with Some (Done ts) => ts | _ => ts_empty end.
Definition level (l : RpcModel.rpc_level) : option acc_config := Some (RpcModel.AccConfig None None (Some l) None).
Definition shown_amount (u : ui_account) : option N := match u_data u with UText b UBase64 => Some (unle (take 8 (drop 64 b))) | _ => None end.
Definition info (key : N) (cfg : option acc_config) : option (N * option N) :=
  match rpc_account E0 RpcProps.no_parse RpcProps.pk_le (child_iface E0 X0 (Filt (fun _ => true) (fun _ => true)) ord0) (CTok srv_store) (le 32 key) cfg with
  | Done (RContext s o) => Some (s, o ≫= shown_amount)
  | _ => None
  end.
Example C100_account_info_example : archive_holds 10 srv_dec srv_archive srv_ls /\ Forall plain srv_ms /\ feed E0 (snapshot_accounts srv_ls) srv_ms (tledger_at srv_ops) /\
  (let l := deliveries_of ord0 (snapshot_accounts srv_ls) srv_ms in settled E0 Finalized l /\ token_account_key E0 l 77 /\ mints_known E0 l (tledger_at srv_ops) 77) /\
  RpcProps.pk_le (le 32 77) = Some 77 /\ info 77 None = Some (10, Some 6) /\ info 77 (level RpcModel.LConfirmed) = Some (10, Some 6) /\ info 77 (level RpcModel.LProcessed) = Some (11, Some 8) /\
  info 80 None = Some (0, None) /\ info 80 (level RpcModel.LProcessed) = Some (11, Some 3).
Proof.
  split; [apply srv_holds|]. split; [by repeat constructor|]. split; [apply srv_feed|]. rewrite srv_deliveries. split.
  - split; [apply srv_settled|]. apply srv_keys. exists (TInit (tokd 77 1001 1002 5 0 0)), (SplAccount 1001 1002 5 None Init None 0 None). split; [left|].
    eapply (live_token _ _ (tokd 77 1001 1002 5 0 0)); [done|apply tokd_live|by apply tokd_unpack].
  - split; [by vm_compute|]. split_and!; vm_compute; reflexivity.
Qed.
Definition ask_for (rs : list rpc_filter) (l : option RpcModel.rpc_level) : gpa_config := RpcModel.GpaConfig (Some rs) (RpcModel.AccConfig None None l None) None.
Definition found (cfg : gpa_config) : option (list (N * option N)) :=
  match rpc_gpa E0 RpcProps.no_parse RpcProps.pk_le (child_iface E0 X0 (Filt (fun _ => true) (fun _ => true)) ord0) (CTok srv_store) (le 32 spl_token_id) (Some cfg) with
  | Done (RPlain k) => Some ((fun x => (x.1, shown_amount x.2)) <$> k)
  | _ => None
  end.
Definition of_owner (o : N) : list rpc_filter := [RDataSize 165; RMemcmp 32 (MBytes (le 32 o))].
Definition of_mint (m : N) : list rpc_filter := [RMemcmp 0 (MBytes (le 32 m)); RDataSize 165].
Lemma of_owner_requests o : o < 2 ^ 256 -> requests E0 (of_owner o) (Some o) None.
Proof.
  intros Ho. constructor; unfold of_owner; simpl.
  - intros off d [H|[[= -> ->]|H%elem_of_nil]%elem_of_cons]%elem_of_cons; try done. by eexists.
  - set_solver.
  - split; [left|]. intros n [[= ->]|[?|H%elem_of_nil]%elem_of_cons]%elem_of_cons; done.
  - split; [done|]. split; [exists (MBytes (le 32 o)); split; [right; left|done]|]. intros d b [H|[[= ->]|H%elem_of_nil]%elem_of_cons]%elem_of_cons Hs _; try done.
  - intros d b [H|[H|H%elem_of_nil]%elem_of_cons]%elem_of_cons; done.
Qed.
Lemma of_mint_requests m : m < 2 ^ 256 -> requests E0 (of_mint m) None (Some m).
Proof.
  intros Ho. constructor; unfold of_mint; simpl.
  - intros off d [[= -> ->]|[H|H%elem_of_nil]%elem_of_cons]%elem_of_cons; try done. by eexists.
  - set_solver.
  - split; [right; left|]. intros n [?|[[= ->]|H%elem_of_nil]%elem_of_cons]%elem_of_cons; done.
  - intros d b [H|[H|H%elem_of_nil]%elem_of_cons]%elem_of_cons; done.
  - split; [done|]. split; [exists (MBytes (le 32 m)); split; [left|done]|]. intros d b [[= ->]|[H|H%elem_of_nil]%elem_of_cons]%elem_of_cons Hs _; try done.
Qed.
Example C100_owner_accounts_example : let l := deliveries_of ord0 (snapshot_accounts srv_ls) srv_ms in tidy E0 l /\ all_keys E0 l (tledger_at srv_ops) /\ told_apart (tledger_at srv_ops) /\ keeps_owner E0 l /\
  RpcProps.pk_le (le 32 spl_token_id) = Some spl_token_id /\ requests E0 (of_owner 1002) (Some 1002) None /\
  found (ask_for (of_owner 1002) None) = Some [(77, Some 6)] /\ found (ask_for (of_owner 1002) (Some RpcModel.LProcessed)) = Some [(77, Some 8)] /\ found (ask_for (of_owner 1003) None) = Some [].
Proof.
  intros l. unfold l. rewrite srv_deliveries. assert (forallb raw_b srv_ops = true) as Hraw by (by vm_compute).
  split; [apply tidy_check; [done|by vm_compute]|]. split; [apply srv_keys|]. split; [apply told_apart_check; by vm_compute|]. split; [refine (keeps_check _ Hraw sa_owner _); by vm_compute|].
  split; [by vm_compute|]. split; [by apply of_owner_requests|]. split_and!; vm_compute; reflexivity.
Qed.
Example C100_mint_accounts_example : let l := deliveries_of ord0 (snapshot_accounts srv_ls) srv_ms in keeps_mint E0 l /\ requests E0 (of_mint 1001) None (Some 1001) /\
  found (ask_for (of_mint 1001) None) = Some [(77, Some 6)] /\ found (ask_for (of_mint 1001) (Some RpcModel.LProcessed)) = Some [(77, Some 8)].
Proof.
  intros l. unfold l. rewrite srv_deliveries. assert (forallb raw_b srv_ops = true) as Hraw by (by vm_compute).
  split; [refine (keeps_check _ Hraw sa_mint _); by vm_compute|]. split; [by apply of_mint_requests|]. split; vm_compute; reflexivity.
Qed.
