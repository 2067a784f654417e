(** C107, from the stream to the text: on an orderly stream the JSON text of an answer shows the ledger. *)
From Verif Require Import Base DataModel BincodeModel FilterModel FilterSpec ByCommitSpec Base58Model Base58Proofs EncodingSpec StoreModel StoreSpec StoreProps DispatchModel RpcModel RpcProps RpcTotalProps
  RpcTextModel EncodingProps JsonModel JsonSpec JsonGrammar FilterJsonSpec RpcWireModel RpcWireSpec RpcWireProps OwnerSpec LedgerSpec.
From Coq Require Import String.
#[local] Open Scope string_scope.
#[local] Open Scope list_scope.
From Verif Require LedgerRun LedgerProps LedgerQueryProps.

Lemma same_fits E a b : same_account E b a -> fits E a -> fits E b.
Proof. intros (_ & H1 & _ & _ & H2 & H3 & _ & H4) (F1 & F2 & F3 & F4). unfold fits, plain. rewrite H1, H2, H3, H4. done. Qed.
Lemma same_shown E P v a b d : same_account E b a -> account_shown P v b d -> account_shown P v a d.
Proof. intros (_ & H1 & H2 & H3 & H4 & _) H. unfold account_shown in *. by rewrite <- H1, <- H2, <- H3, <- H4. Qed.
Lemma same_keyed E P v a b d : same_account E b a -> keyed_shown P v b d -> keyed_shown P v a d.
Proof. intros Hs [(k & Hk & Hp) (x & Hx & Ha)]. split; [exists k; split; [done|]; destruct Hs as [<- _]; done|]. exists x. split; [done|]. by eapply same_shown. Qed.

(** One account: its newest version in the ledger, or null if there is none or it is closed. *)
Theorem C107_account_text_shows_ledger : forall E F parse h L st k pk cfg c r t v,
  orderly h L -> run E store_empty h = Done st -> steady h pk \/ closes_once h pk -> (forall a, delivered_in h a -> fits E a) ->
  base58_text (le 32 pk) k -> pk < 2 ^ 256 -> wants (cfg ≫= ac_commitment) c -> textual cfg ->
  rpc_account E parse pk_parse (Jmem E F) st k cfg = Done r -> account_result r = Some t -> document t v ->
  exists o, in_ledger L pk c o /\
    ((exists a d x, o = Some a /\ alive a /\ plain E a d /\ response_shown v (d_slot a) x /\ account_shown (data_shown cfg d) x a d) \/
     ((forall a, o = Some a -> ~ alive a) /\ response_shown v 0 JNull)).
Proof.
  intros E F parse h L st k pk cfg c r t v Ho Hrun Hreg Hfit Hk Hlt Hw Ht Hr Htx Hv.
  destruct (LedgerProps.C89_reads_show_ledger E h L st pk c Ho Hrun Hreg) as (o & Hin & Hg). exists o. split; [done|].
  assert (forall a, o = Some a -> fits E a) as Hfo.
  { intros a ->. apply Hfit. destruct Hin as [[Hc _] _]. apply (LedgerRun.orderly_received _ _ _ Ho). destruct Hc as [?|[? _]]; auto. }
  assert (pk_parse k = Some pk) as Hp by (by apply C05_key_text_exact). apply wants_fun in Hw as Hc.
  unfold rpc_account in Hr. rewrite Hp in Hr. rewrite <- Hc in Hr. cbn [i_get Jmem] in Hr. rewrite Hg in Hr. simpl in Hr.
  destruct o as [a|]; [destruct (N.ltb_spec 0 (d_lamports a)) as [Hl|Hl]|].
  - destruct (convert E parse a cfg) as [u|] eqn:Hu; [|done]. simpl in Hr. injection Hr as <-. specialize (Hfo a eq_refl). left.
    destruct (ui_shown E parse a cfg u Hu Ht Hfo) as (d & x & Hd & Hx & Hs & Hwx & Hn). simpl in Htx. rewrite Hx in Htx. simpl in Htx. injection Htx as <-.
    destruct (response_ok (d_slot a) x) as [H1 H2]; [by destruct Hfo as (_ & _ & ? & _)|done|lia|]. apply H1 in Hv as ->. by exists a, d, x.
  - injection Hr as <-. simpl in Htx. injection Htx as <-. destruct (response_ok 0 JNull) as [H1 H2]; [done|constructor|simpl; lia|]. apply H1 in Hv as ->. right. split; [|done].
    intros b [= <-]. unfold alive. lia.
  - injection Hr as <-. simpl in Htx. injection Htx as <-. destruct (response_ok 0 JNull) as [H1 H2]; [done|constructor|simpl; lia|]. apply H1 in Hv as ->. by right.
Qed.
Print Assumptions C107_account_text_shows_ledger.

(** A filter of a request, on an account. *)
Definition meets_rpc (E : ext) (rs : option (list rpc_filter)) (a : acct) : Prop :=
  forall l x, rs = Some l -> x ∈ l -> exists d, plain E a d /\ rpc_holds E x d.
Lemma meets_rpc_iff E rs fl a : expresses E rs fl -> (forall l, rs = Some l -> Forall (rpc_decodable E) l) -> meets E fl a <-> meets_rpc E rs a.
Proof.
  intros He Hd. destruct rs as [rs|], fl as [fl|]; [|done|done|by split; intros _ ? ? [=]]. simpl in He. specialize (Hd rs eq_refl). split; intros H l x [= <-] Hx.
  - apply elem_of_list_lookup in Hx as [i Hi]. destruct (Forall2_lookup_l _ _ _ _ _ He Hi) as (y & Hy & Hxy). destruct (H fl y eq_refl) as (d & Hp & Hh); [by eapply elem_of_list_lookup_2|].
    exists d. split; [done|]. apply Hxy; [by eapply Forall_lookup_1|done].
  - apply elem_of_list_lookup in Hx as [i Hi]. destruct (Forall2_lookup_r _ _ _ _ _ He Hi) as (y & Hy & Hxy). destruct (H rs y eq_refl) as (d & Hp & Hh); [by eapply elem_of_list_lookup_2|].
    exists d. split; [done|]. apply Hxy; [by eapply Forall_lookup_1|done].
Qed.
(** Not older than the slot asked for. *)
Definition new_enough (cfg : option gpa_config) (a : acct) : Prop := cfg ≫= gc_with_context = Some true -> requested_min cfg <= d_slot a.
Lemma NoDup_sublist_map (P : acct -> Prop) `{!forall a, Decision (P a)} (l : list acct) : NoDup (map d_pubkey l) -> NoDup (map d_pubkey (filter P l)).
Proof.
  induction l as [|a l IH]; [done|]. simpl. intros [Ha Hl]%NoDup_cons. rewrite filter_cons. destruct (decide (P a)); [|by apply IH]. simpl. apply NoDup_cons. split; [|by apply IH].
  intros (b & Hb & Hin)%elem_of_list_fmap. apply Ha. apply elem_of_list_fmap. exists b. split; [done|]. by apply elem_of_list_filter in Hin as [_ ?].
Qed.
(** The accounts of a program: those that the ledger holds for it at the commitment, that pass the filters and are not older than the slot
    asked for (only looked at with context), once each. *)
Theorem C107_program_text_shows_ledger : forall E F parse h L st k p cfg c r t v,
  orderly h L -> run E store_empty h = Done st -> (forall pk, steady h pk \/ closes_once h pk) ->
  owners_settle (delivered_in h) -> closed_apart (delivered_in h) -> loads_in_order h -> versions_differ h -> (forall a, delivered_in h a -> honest E a /\ fits E a) ->
  base58_text (le 32 p) k -> p < 2 ^ 256 -> wants (cfg ≫= fun x => ac_commitment (gc_account x)) c -> textual (gc_account <$> cfg) ->
  (forall l, cfg ≫= gc_filters = Some l -> Forall (rpc_decodable E) l) ->
  rpc_gpa E parse pk_parse (Jmem E F) st k cfg = Done r -> program_result r = Some t -> document t v ->
  exists vs,
    (if decide (cfg ≫= gc_with_context = Some true) then exists slot, response_shown v slot (JArr vs) else v = JArr vs) /\
    (exists pks, Forall2 (fun x pk => exists y, entry "pubkey" x y /\ key_shown y pk) vs pks /\ NoDup pks) /\
    (forall x, x ∈ vs -> exists a d, in_ledger L (d_pubkey a) c (Some a) /\ d_owner a = p /\ meets_rpc E (cfg ≫= gc_filters) a /\ new_enough cfg a /\
       plain E a d /\ keyed_shown (data_shown (gc_account <$> cfg) d) x a d) /\
    (forall a, in_ledger L (d_pubkey a) c (Some a) -> alive a -> d_owner a = p -> meets_rpc E (cfg ≫= gc_filters) a -> new_enough cfg a ->
       exists d x, x ∈ vs /\ plain E a d /\ keyed_shown (data_shown (gc_account <$> cfg) d) x a d).
Proof.
  intros E F parse h L st k p cfg c r t v Ho Hrun Hreg Hset Hap Hld Hdf Hh Hk Hlt Hw Ht Hdec Hr Htx Hv.
  assert (forall q fl c' l, get_program_accounts E F st q fl c' = Done (ROk l) -> NoDup (map d_pubkey l) /\
    (forall b, b ∈ l -> exists a, in_ledger L (d_pubkey b) c' (Some a) /\ same_account E b a /\ d_owner b = q /\ meets E fl a) /\
    (forall a, in_ledger L (d_pubkey a) c' (Some a) -> alive a -> d_owner a = q -> meets E fl a -> exists b, b ∈ l /\ same_account E b a)) as HQ.
  { intros q fl c' l Hl. eapply LedgerQueryProps.C90_queries_show_ledger; try done. intros a Ha. by apply Hh. }
  assert (forall a c', in_ledger L (d_pubkey a) c' (Some a) -> fits E a) as Hfa.
  { intros a c' [[Hc _] _]. apply Hh. apply (LedgerRun.orderly_received _ _ _ Ho). destruct Hc as [?|[? _]]; auto. }
  pose proof (C107_program_text _ E parse (Jmem E F) st k cfg r Hr Ht) as H. rewrite Htx in H.
  destruct H as (p' & fl & c' & l & v' & vs & Hp' & Hk' & He & Hw' & Hl & Hdoc & Hcase).
  { intros q fl c' l b Hl Hb. destruct (HQ q fl c' l Hl) as (_ & Hs & _). destruct (Hs b Hb) as (a & Hin & Hsa & _). eapply same_fits; [done|]. apply (Hfa a c'). destruct Hsa as [<- _]. done. }
  assert (p' = p) as ->. { assert (pk_parse k = Some p) by (by apply C05_key_text_exact). assert (pk_parse k = Some p') by (by apply C05_key_text_exact). congruence. }
  apply wants_fun in Hw. apply wants_fun in Hw'. rewrite <- Hw in Hw'. subst c'. apply Hdoc in Hv as ->. cbn [i_gpa Jmem] in Hl. destruct (HQ p fl c l Hl) as (Hnd & Hsound & Hcomp).
  assert (forall l', Forall2 (fun a x => exists d, plain E a d /\ keyed_shown (data_shown (gc_account <$> cfg) d) x a d) l' vs -> forall (new : acct -> Prop),
    (forall b, b ∈ l' <-> b ∈ l /\ new b) -> (forall a b, d_slot a = d_slot b -> new a -> new b) ->
    (forall x, x ∈ vs -> exists a d, in_ledger L (d_pubkey a) c (Some a) /\ d_owner a = p /\ meets_rpc E (cfg ≫= gc_filters) a /\ new a /\
       plain E a d /\ keyed_shown (data_shown (gc_account <$> cfg) d) x a d) /\
    (forall a, in_ledger L (d_pubkey a) c (Some a) -> alive a -> d_owner a = p -> meets_rpc E (cfg ≫= gc_filters) a -> new a ->
       exists d x, x ∈ vs /\ plain E a d /\ keyed_shown (data_shown (gc_account <$> cfg) d) x a d)) as Hall.
  { intros l' H2 new Hnew Hslot. split.
    - intros x [i Hi]%elem_of_list_lookup. destruct (Forall2_lookup_r _ _ _ _ _ H2 Hi) as (b & Hb & d & Hd & Hx). apply elem_of_list_lookup_2 in Hb. apply Hnew in Hb as [Hb Hn].
      destruct (Hsound b Hb) as (a & Hin & Hsa & Hob & Hm). exists a, d. pose proof Hsa as (Hpk & _ & Hoa & _ & _ & Hsl & _ & Hda). rewrite <- Hpk. split; [done|]. split; [congruence|].
      split; [by apply (meets_rpc_iff E _ fl)|]. split; [by apply (Hslot b)|]. split; [unfold plain in *; congruence|]. by eapply same_keyed.
    - intros a Hin Hal Hoa Hm Hn. destruct (Hcomp a Hin Hal Hoa) as (b & Hb & Hsa); [by apply (meets_rpc_iff E (cfg ≫= gc_filters) fl)|].
      assert (b ∈ l') as Hb'. { apply Hnew. split; [done|]. apply (Hslot a); [|done]. destruct Hsa as (_ & _ & _ & _ & _ & Hsl & _). done. }
      apply elem_of_list_lookup in Hb' as [i Hi]. destruct (Forall2_lookup_l _ _ _ _ _ H2 Hi) as (x & Hx & d & Hd & Hsx). exists d, x. split; [by eapply elem_of_list_lookup_2|].
      split; [|by eapply same_keyed]. destruct Hsa as (_ & _ & _ & _ & _ & _ & _ & Hda). unfold plain in *. congruence. }
  assert (forall l', Forall2 (fun a x => exists d, plain E a d /\ keyed_shown (data_shown (gc_account <$> cfg) d) x a d) l' vs -> NoDup (map d_pubkey l') ->
    exists pks, Forall2 (fun x pk => exists y, entry "pubkey" x y /\ key_shown y pk) vs pks /\ NoDup pks) as Hkeys.
  { intros l' H2 Hn. exists (map d_pubkey l'). split; [|done]. apply Forall2_fmap_r. apply Forall2_flip. eapply Forall2_impl; [exact H2|]. intros a x (d & _ & Hx & _). exact Hx. }
  exists vs. destruct (decide (cfg ≫= gc_with_context = Some true)) as [Hc|Hc].
  - destruct Hcase as [(slot & Hresp & _) H2]. split; [by exists slot|]. split.
    { apply (Hkeys _ H2). apply (NoDup_sublist_map _ _ Hnd). }
    apply (Hall _ H2); [intros b; rewrite elem_of_list_filter; unfold new_enough; tauto|]. unfold new_enough. intros a b Hab Ha H. rewrite <- Hab. auto.
  - destruct Hcase as [-> H2]. split; [done|]. split; [by apply (Hkeys _ H2)|]. apply (Hall _ H2); [intros b; unfold new_enough; tauto|by unfold new_enough].
Qed.
Print Assumptions C107_program_text_shows_ledger.

(** ** Examples *)
From Verif Require Import FilterProps.
Lemma ledger_fits a : delivered_in LedgerProps.ledger_hist a -> honest ext_sample a /\ fits ext_sample a.
Proof.
  intros Ha. destruct LedgerQueryProps.C90_queries_show_ledger_example as (_ & _ & _ & _ & _ & _ & _ & Hh & _). split; [by apply Hh|].
  apply LedgerQueryProps.plain_delivered in Ha; [|apply LedgerQueryProps.ledger_hist_query_hyps].
  assert (Forall (fits ext_sample) (LedgerProps.given LedgerProps.ledger_hist)) as Hall; [|rewrite Forall_forall in Hall; by apply Hall].
  set (l := LedgerProps.given LedgerProps.ledger_hist). vm_compute in l. subst l.
  repeat (apply Forall_cons; split); [..|done]; (split; [done|]); (split; [done|]); (split; [done|]); intros d Hd; vm_compute in Hd; injection Hd as <-; done.
Qed.
Example C107_example_account_ledger : exists r t v, let h := LedgerProps.ledger_hist in
  orderly h (LedgerProps.ledger_at h) /\ run ext_sample store_empty h = Done (final h) /\ steady h 5 /\ (forall a, delivered_in h a -> fits ext_sample a) /\
  base58_text (le 32 5) (pk_text 5) /\ wants None Finalized /\ textual None /\
  rpc_account ext_sample no_parse pk_parse (Jmem ext_sample admit_all) (final h) (pk_text 5) None = Done r /\ account_result r = Some t /\ document t v.
Proof.
  destruct LedgerProps.C89_reads_show_ledger_example as (H1 & H2 & H3 & _). eexists _, _, _. intros h. split; [exact H1|]. split; [exact H2|]. split; [exact H3|]. split; [intros a Ha; exact (proj2 (ledger_fits a Ha))|].
  split; [apply text58_iff; reflexivity|]. split; [left; reflexivity|]. split; [by split|]. clear. split; [vm_compute; reflexivity|]. split; [vm_compute; reflexivity|]. apply JsonSound.json_exact. vm_compute. reflexivity.
Qed.
Example C107_example_program_ledger : exists r t v, let h := LedgerProps.ledger_hist in
  orderly h (LedgerProps.ledger_at h) /\ run ext_sample store_empty h = Done (final h) /\ (forall pk, steady h pk \/ closes_once h pk) /\
  owners_settle (delivered_in h) /\ closed_apart (delivered_in h) /\ loads_in_order h /\ versions_differ h /\ (forall a, delivered_in h a -> honest ext_sample a /\ fits ext_sample a) /\
  base58_text (le 32 8) (pk_text 8) /\ wants None Finalized /\ textual None /\
  rpc_gpa ext_sample no_parse pk_parse (Jmem ext_sample admit_all) (final h) (pk_text 8) None = Done r /\ program_result r = Some t /\ document t (JArr [v]).
Proof.
  destruct LedgerQueryProps.C90_queries_show_ledger_example as (H1 & H2 & H3 & H4 & H5 & H6 & H7 & H8 & _). eexists _, _, _. intros h.
  split; [exact H1|]. split; [exact H2|]. split; [exact H3|]. split; [exact H4|]. split; [exact H5|]. split; [exact H6|]. split; [exact H7|]. split; [exact ledger_fits|].
  split; [apply text58_iff; reflexivity|]. split; [left; reflexivity|]. split; [by split|]. clear. split; [vm_compute; reflexivity|]. split; [vm_compute; reflexivity|]. apply JsonSound.json_exact. vm_compute. reflexivity.
Qed.
