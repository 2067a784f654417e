(** C100 for requests with context: the slot of the answer and the minimum slot. *)
From Verif Require AvecProps StreamProps RpcProps.
From Verif Require Import Base SMap DataModel BincodeModel BincodeProofs FilterModel StoreModel TokenModel TokenProofs TokenProps SplModel SplProofs TokenUtilsModel
  TokenUtilsProofs TokenPendModel TokenPendSpec TokenPendProofs TokenPendProps TokenUtilsProps TokenStoreModel TokenStoreSpec TokenStoreProofs TokenStoreViews TokenStoreProps TokenStoreOrder
  TokenStoreQuery TokenStoreQueryProps TokenStoreSafe TokenStoreServed TokenLedgerSpec TokenLedgerProofs TokenLedgerKey TokenLedgerProps TokenLedgerQueryProps TokenLedgerNotifyProps TokenLedgerEdge TokenLedgerSafeProps
  DispatchModel AvecModel AvecSpec StreamModel StreamSpec ServerModel ServerSpec ServerProps.
From Verif Require RpcModel.
Import RpcModel(rpc_account, rpc_gpa, acc_config, gpa_config, ac_encoding, ac_slice, ac_commitment, ac_min, gc_filters, gc_account, gc_with_context, u_owner, u_data, u_space, UText, UBase64, UBase64Zstd, RContext, RPlain, ui_account, convert).
#[local] Arguments le : simpl never.
#[local] Arguments unle : simpl never.
#[local] Opaque to_bytes from_bytes peek_pubkey.

(** ** Specification *)
(** The slot under which the version [a] is answered: its own slot while that is not finalized, the newest finalized slot afterwards. *)
Definition answered_under (L : tledger) (a : acct) (slot : N) : Prop :=
  (a ∈ tl_writes L /\ ~ is_final L (d_slot a) /\ slot = d_slot a) \/ (tcounts L Finalized a /\ slot = default 0 (tl_fin L)).
(** The answer with context: as without ([lists]), but only the accounts that are answered under a slot from [min] on; the slot of the answer is that of one
    of the accounts asked for, hidden or not, and no account shown has a later one; it is 0 if there is none. *)
Definition lists_since (E : ext) (L : tledger) (c : commitment) (cfg : option acc_config) (o mo : option pubkey) (min slot : N) (k : list (pubkey * ui_account)) : Prop :=
  NoDup k.*1 /\
  (forall pk u, (pk, u) ∈ k -> exists a t, in_tledger L pk c (Some a) /\ holds_for E a o mo /\ ~ closed a /\ pictured E cfg a u /\ answered_under L a t /\ min <= t <= slot) /\
  (forall pk f a, in_tledger L pk Finalized (Some f) -> ~ closed f -> in_tledger L pk c (Some a) -> holds_for E a o mo ->
     exists t, answered_under L a t /\ t <= slot /\ (min <= t -> pk ∈ k.*1)) /\
  ((exists pk a, in_tledger L pk c (Some a) /\ holds_for E a o mo /\ ~ closed a /\ answered_under L a slot) \/
   (slot = 0 /\ k = [] /\ forall pk f a, in_tledger L pk Finalized (Some f) -> ~ closed f -> in_tledger L pk c (Some a) -> ~ holds_for E a o mo)).

Section server.
Context (fuel : nat) (E : ext) (X : lz4x) (F : filt) (dec : bytes -> option index_t) (ord : drain) (parse : pubkey -> pubkey -> bytes -> option bytes) (pk_of : bytes -> option pubkey).
Lemma keyed_since cfg L c o mo min r : told_apart L -> (forall a, a ∈ tl_base L \/ a ∈ tl_writes L -> exists v, data_bytes E (d_data a) = Done v) -> shows_ledger E L c o mo r ->
  exists k, RpcModel.keyed E parse r min cfg = Done k /\ lists_since E L c cfg o mo min (RpcModel.max_slot r) k.
Proof.
  intros Hta Hread (S1 & S2 & S3).
  assert (forall b, b ∈ r -> exists a u, in_tledger L (d_pubkey b) c (Some a) /\ holds_for E a o mo /\ ~ closed a /\ convert E parse b cfg = Done u /\ pictured E cfg a u /\ answered_under L a (d_slot b)) as Hone.
  { intros b Hb. destruct (S2 b Hb) as (a & Ha & Hh & [[_ ?]|[Hcl (b' & [= <-] & H1 & H2 & H3 & H4)]]); [done|]. destruct (Hread a) as [v Hv]; [destruct Ha as [[[?|[? _]] _] _]; tauto|].
    destruct (shown_as E parse cfg a b v H2 H3 Hv) as (u & Hu & Hpic). by exists a, u. }
  assert (exists k, RpcModel.keyed E parse r min cfg = Done k /\ k.*1 = d_pubkey <$> filter (fun b => min <= d_slot b) r /\ forall pk u, (pk, u) ∈ k -> exists b, b ∈ r /\ min <= d_slot b /\ d_pubkey b = pk /\ convert E parse b cfg = Done u) as (k & Hk & Hk1 & Hk2).
  { clear S1 S2 S3. induction r as [|b r IH]; [exists []; split; [done|]; split; [done|]; by intros pk u ?%elem_of_nil|]. destruct IH as (k & Hk & Hk1 & Hk2); [intros b' Hb'; apply Hone; by right|].
    destruct (Hone b) as (a & u & _ & _ & _ & Hu & _); [left|]. cbn [RpcModel.keyed]. rewrite filter_cons.
    destruct (N.leb_spec min (d_slot b)) as [Hle|Hlt]; [rewrite decide_True by done|rewrite decide_False by lia].
    - rewrite Hu. cbn [mbind res_bind]. rewrite Hk. cbn [mbind res_bind].
      eexists. split; [done|]. split; [by rewrite !fmap_cons, Hk1|]. intros pk u' [[= -> ->]|Hin]%elem_of_cons; [exists b; split; [left|done]|]. destruct (Hk2 pk u' Hin) as (b' & ? & ?). exists b'. split; [by right|done].
    - exists k. split; [done|]. split; [done|]. intros pk u' Hin. destruct (Hk2 pk u' Hin) as (b' & ? & ?). exists b'. split; [by right|done]. }
  exists k. split; [done|]. split; [|split; [|split]].
  - rewrite Hk1. clear -S1. induction r as [|b r IH]; [constructor|]. rewrite fmap_cons in S1. apply NoDup_cons in S1 as [Hn S1]. rewrite filter_cons.
    case_decide; [|by apply IH]. rewrite fmap_cons. constructor; [|by apply IH]. intros (x & Hx & [_ Hin]%elem_of_list_filter)%elem_of_list_fmap. apply Hn. rewrite Hx. by apply elem_of_list_fmap_1.
  - intros pk u Hin. destruct (Hk2 pk u Hin) as (b & Hb & Hm & <- & Hu). destruct (Hone b Hb) as (a & u' & H1 & H2 & H3 & H4 & H5 & H6). exists a, (d_slot b). split_and!; try done; [congruence|]. by apply RpcProps.max_slot_ge.
  - intros pk f a H1 H2 H3 H4. destruct (S3 pk f a H1 H2 H3 H4) as (b & Hb & <-). destruct (Hone b Hb) as (a' & u' & G1 & G2 & G3 & G4 & G5 & G6).
    assert (a' = a) as -> by (eapply told_fun; done). exists (d_slot b). split; [done|]. split; [by apply RpcProps.max_slot_ge|]. intros Hm. rewrite Hk1. apply elem_of_list_fmap_1. by apply elem_of_list_filter.
  - destruct (decide (r = [])) as [->|Hne].
    + right. split; [done|]. split; [injection Hk as <-; done|]. intros pk f a H1 H2 H3 H4. destruct (S3 pk f a H1 H2 H3 H4) as (b & Hb%elem_of_nil & _). done.
    + left. destruct (RpcProps.max_slot_in r Hne) as (b & Hb & ->). destruct (Hone b Hb) as (a & u & G1 & G2 & G3 & _ & _ & G6). by exists (d_pubkey b), a.
Qed.
Lemma context_answer ts rs p prog cfg c r o mo L : told_apart L -> (forall a, a ∈ tl_base L \/ a ∈ tl_writes L -> exists v, data_bytes E (d_data a) = Done v) -> pk_of prog = Some p -> gc_filters cfg = Some rs -> gc_with_context cfg = Some true ->
  RpcProps.wants (ac_commitment (gc_account cfg)) c -> (exists cs, RpcModel.convert_filters E rs = Done cs /\ ts_gpa E ts p (Some cs) c = Done (ROk r)) -> shows_ledger E L c o mo r ->
  exists slot k, rpc_gpa E parse pk_of (child_iface E X F ord) (CTok ts) prog (Some cfg) = Done (RContext slot k) /\ lists_since E L c (Some (gc_account cfg)) o mo (default 0 (ac_min (gc_account cfg))) slot k.
Proof.
  intros Hta Hread Hpk Hrs Hctx Hc (cs & Hcs & Hg) Hsh. destruct (keyed_since (Some (gc_account cfg)) L c o mo (default 0 (ac_min (gc_account cfg))) r Hta Hread Hsh) as (k & Hk & Hl). exists (RpcModel.max_slot r), k. split; [|done].
  unfold rpc_gpa. cbn [mbind option_bind]. rewrite Hpk, Hrs, Hcs. cbn [mbind res_bind]. rewrite <- (wants_fun _ _ Hc). cbn [child_iface i_gpa]. rewrite Hg. cbn [mbind res_bind].
  rewrite Hctx. cbn [default]. change (gc_account <$> Some cfg) with (Some (gc_account cfg)). simpl. simpl in Hk. rewrite Hk. done.
Qed.
Theorem C100_owner_context_partial es ls ms L rs p prog cfg c o mo : archive_holds fuel dec es ls -> Forall plain ms -> feed E (snapshot_accounts ls) ms L ->
  let l := deliveries_of ord (snapshot_accounts ls) ms in settled E Finalized l -> tidy E l -> all_keys E l L -> told_apart L -> keeps_owner E l ->
  (mo = None \/ keeps_mint E l) -> (forall m, mo = Some m -> mint_known E l L m) ->
  pk_of prog = Some p -> p = spl_token_id \/ p = spl_2022_id -> gc_filters cfg = Some rs -> requests E rs (Some o) mo -> gc_with_context cfg = Some true -> RpcProps.wants (ac_commitment (gc_account cfg)) c ->
  exists ts slot k, serve fuel E X dec ord es ms = Some (Done ts) /\ rpc_gpa E parse pk_of (child_iface E X F ord) (CTok ts) prog (Some cfg) = Done (RContext slot k) /\
    lists_since E L c (Some (gc_account cfg)) (Some o) mo (default 0 (ac_min (gc_account cfg))) slot k.
Proof.
  intros Hes Hp Hf l Hse Htd Hall Hta Hko Hkm Hmk Hpk Hpp Hrs Hrq Hctx Hc. pose proof (feed_orderly E ord _ _ _ (snapshot_zero ls) Hf) as Ho.
  destruct (C98_orderly_streams_run_partial E X l L Ho Hse) as (ts & Hr & Hctr & _). destruct (converted E parse rs (Some o) mo p Hrq) as (cs & Hcs & Hq & Hp1 & Hp2).
  destruct (C93_owner_queries_show_ledger_partial E X l L ts p cs o mo c Ho (se_ops _ _ _ Hse) Hr Hctr Htd Hall Hta Hko Hkm Hmk Hpp Hq Hp1 Hp2) as (r & Hg & Hsh).
  destruct (context_answer ts rs p prog cfg c r (Some o) mo L) as (slot & k & Hk & Hl); try done; [|eauto|].
  { intros a Ha. destruct (in_stream E l L Ho a Ha) as (op & Hop & Hoa). destruct (se_read _ _ _ Hse op a Hop Hoa) as (v & Hv & _). eauto. }
  exists ts, slot, k. split; [|done]. rewrite (serve_run fuel E X dec ord es ls ms Hes Hp). f_equal. exact Hr.
Qed.
Theorem C100_mint_context_partial es ls ms L rs p prog cfg c m : archive_holds fuel dec es ls -> Forall plain ms -> feed E (snapshot_accounts ls) ms L ->
  let l := deliveries_of ord (snapshot_accounts ls) ms in settled E Finalized l -> tidy E l -> all_keys E l L -> told_apart L -> keeps_mint E l ->
  pk_of prog = Some p -> p = spl_token_id \/ p = spl_2022_id -> gc_filters cfg = Some rs -> requests E rs None (Some m) -> gc_with_context cfg = Some true -> RpcProps.wants (ac_commitment (gc_account cfg)) c ->
  exists ts slot k, serve fuel E X dec ord es ms = Some (Done ts) /\ rpc_gpa E parse pk_of (child_iface E X F ord) (CTok ts) prog (Some cfg) = Done (RContext slot k) /\
    lists_since E L c (Some (gc_account cfg)) None (Some m) (default 0 (ac_min (gc_account cfg))) slot k.
Proof.
  intros Hes Hp Hf l Hse Htd Hall Hta Hkm Hpk Hpp Hrs Hrq Hctx Hc. pose proof (feed_orderly E ord _ _ _ (snapshot_zero ls) Hf) as Ho.
  destruct (C98_orderly_streams_run_partial E X l L Ho Hse) as (ts & Hr & Hctr & _). destruct (converted E parse rs None (Some m) p Hrq) as (cs & Hcs & Hq & Hp1 & Hp2).
  destruct (C93_mint_queries_show_ledger_partial E X l L ts p cs m c Ho (se_ops _ _ _ Hse) Hr Hctr Htd Hall Hta Hkm (settled_stay _ _ _ Hse) Hpp Hq Hp1 Hp2) as (r & Hg & Hsh).
  destruct (context_answer ts rs p prog cfg c r None (Some m) L) as (slot & k & Hk & Hl); try done; [|eauto|].
  { intros a Ha. destruct (in_stream E l L Ho a Ha) as (op & Hop & Hoa). destruct (se_read _ _ _ Hse op a Hop Hoa) as (v & Hv & _). eauto. }
  exists ts, slot, k. split; [|done]. rewrite (serve_run fuel E X dec ord es ls ms Hes Hp). f_equal. exact Hr.
Qed.
End server.
Print Assumptions C100_owner_context_partial.
Print Assumptions C100_mint_context_partial.

(** ** Example: the server of [ServerProps], asked with context; at Processed account 77 is answered under slot 11, so a minimum of 12 hides it and leaves the slot. *)
Definition ask_since (rs : list rpc_filter) (l : option RpcModel.rpc_level) (min : option N) : gpa_config := RpcModel.GpaConfig (Some rs) (RpcModel.AccConfig None None l min) (Some true).
Definition found_since (cfg : gpa_config) : option (N * list (N * option N)) :=
  match rpc_gpa E0 RpcProps.no_parse RpcProps.pk_le (child_iface E0 X0 (Filt (fun _ => true) (fun _ => true)) ord0) (CTok srv_store) (le 32 spl_token_id) (Some cfg) with
  | Done (RContext slot k) => Some (slot, (fun x => (x.1, shown_amount x.2)) <$> k)
  | _ => None
  end.
Example C100_context_example : let l := deliveries_of ord0 (snapshot_accounts srv_ls) srv_ms in
  archive_holds 10 srv_dec srv_archive srv_ls /\ feed E0 (snapshot_accounts srv_ls) srv_ms (tledger_at srv_ops) /\ settled E0 Finalized l /\
  tidy E0 l /\ all_keys E0 l (tledger_at srv_ops) /\ told_apart (tledger_at srv_ops) /\ keeps_owner E0 l /\ keeps_mint E0 l /\ requests E0 (of_owner 1002) (Some 1002) None /\
  found_since (ask_since (of_owner 1002) None None) = Some (10, [(77, Some 6)]) /\ found_since (ask_since (of_owner 1002) (Some RpcModel.LProcessed) (Some 11)) = Some (11, [(77, Some 8)]) /\
  found_since (ask_since (of_owner 1002) (Some RpcModel.LProcessed) (Some 12)) = Some (11, []) /\ found_since (ask_since (of_owner 1003) None None) = Some (0, []) /\
  found_since (ask_since (of_mint 1001) None (Some 10)) = Some (10, [(77, Some 6)]).
Proof.
  intros l. unfold l. rewrite srv_deliveries. assert (forallb raw_b srv_ops = true) as Hraw by (by vm_compute).
  split; [apply srv_holds|]. split; [apply srv_feed|]. split; [apply srv_settled|].
  split; [apply tidy_check; [done|by vm_compute]|]. split; [apply srv_keys|]. split; [apply told_apart_check; by vm_compute|]. split; [refine (keeps_check _ Hraw sa_owner _); by vm_compute|].
  split; [refine (keeps_check _ Hraw sa_mint _); by vm_compute|]. split; [by apply of_owner_requests|]. split_and!; vm_compute; reflexivity.
Qed.
