(** Concurrent calls of the token store: what the answers contain. *)
From Verif Require Import Base SMap DataModel BincodeModel BincodeProofs FilterModel FilterProofs StoreModel TokenModel TokenProofs TokenProps SplModel SplProofs TokenUtilsModel
  TokenUtilsProofs TokenPendModel TokenPendSpec TokenPendProofs TokenPendProps TokenUtilsProps TokenStoreModel TokenStoreSpec TokenStoreProofs TokenStoreViews TokenStoreProps TokenStoreOrder
  TokenStoreQuery TokenStoreQueryProps TokenStoreSafe TokenConcModel TokenConcSpec TokenConcProofs TokenConcIndex.
#[local] Arguments le : simpl never.
#[local] Arguments unle : simpl never.
#[local] Opaque to_bytes from_bytes peek_pubkey conf_walk add_finalized.

(** ** Pending reads, key by key *)
Definition keyed (P : pubkey -> pacct * N -> Prop) (pks : list pubkey) (ret : list (option (pacct * N))) : Prop :=
  forall i x, ret !! i = Some (Some x) -> exists pk, pks !! i = Some pk /\ P pk x.
Lemma keyed_none (P : pubkey -> pacct * N -> Prop) pks n : keyed P pks (replicate n None).
Proof. intros i x Hx. by apply lookup_replicate in Hx as [? _]. Qed.
Lemma fill_keyed (P : pubkey -> pacct * N -> Prop) b s pks ret : keyed P pks ret -> (forall pk v, ps_accounts b !! pk = Some v -> P pk (v, s)) -> keyed P pks (fill b s pks ret).
Proof.
  intros Hr Hb i x Hi. assert (is_Some (ret !! i)) as [o Ho]. { apply lookup_lt_is_Some. rewrite <- (fill_length b s pks). by eapply lookup_lt_Some. }
  destruct o as [y|].
  - destruct (Hr _ _ Ho) as (pk & Hpk & HP). rewrite (fill_lookup b s pks ret i pk (Some y) Hpk Ho) in Hi. injection Hi as ->. eauto.
  - destruct (pks !! i) as [pk|] eqn:Hpk.
    + rewrite (fill_lookup b s pks ret i pk None Hpk Ho) in Hi. apply (inj Some) in Hi. apply fmap_Some in Hi as (v & Hv & ->). exists pk. split; [done|]. by apply Hb.
    + exfalso. clear -Hi Hpk Ho. revert ret i Hi Hpk Ho. induction pks as [|q pks IH]; intros [|o ret] [|i]; simpl; try done; try congruence. apply IH.
Qed.
Lemma conf_walk_keyed (P : pubkey -> pacct * N -> Prop) fuel p pks cur ret r : sm_sorted p -> (forall s pk v, version p s pk v -> P pk (v, s)) -> keyed P pks ret ->
  conf_walk fuel p pks cur ret = Some r -> keyed P pks r.
Proof.
  #[local] Transparent conf_walk.
  intros Hs Hp. revert cur ret. induction fuel as [|fuel IH]; intros cur ret Hr; simpl; [done|]. destruct cur as [s|]; [|by intros [= <-]].
  destruct (sm_get s p) as [b|] eqn:Hb; [|by intros [= <-]]. assert (keyed P pks (fill b s pks ret)) as Hf.
  { apply fill_keyed; [done|]. intros pk v Hv. apply (Hp s pk v). apply (version_get _ Hs). eauto. }
  destruct (all_found _); [by intros [= <-]|]. by apply IH.
  #[local] Opaque conf_walk.
Qed.
Lemma proc_top_keyed (P : pubkey -> pacct * N -> Prop) pks conf l ret : (forall s pk v, version l s pk v -> P pk (v, s)) -> keyed P pks ret -> keyed P pks (proc_top pks conf l ret).1.
Proof.
  revert ret. induction l as [|[s b] l IH]; intros ret Hl Hr; simpl; [done|]. destruct (conf <? s); [|done].
  assert (keyed P pks (fill b s pks ret)) as Hf. { apply fill_keyed; [done|]. intros pk v Hv. apply (Hl s pk v). exists b. split; [left|done]. }
  destruct (all_found _); [done|]. apply IH; [|done]. intros s' pk v (b' & Hb & Hv). apply (Hl s' pk v). exists b'. split; [by right|done].
Qed.
(** The version found for a key is a version of that key. *)
Definition of_key (pk : pubkey) (x : pacct * N) : Prop := tpa_pubkey x.1.1 = pk.
Lemma walk_of_key ts fuel pks conf ret r : tinv ts -> keyed of_key pks ret -> conf_walk fuel (ts_pend ts) pks (Some conf) ret = Some r -> keyed of_key pks r.
Proof. intros T. apply conf_walk_keyed; [apply (ti_sorted _ T)|]. intros s pk v Hv. by destruct (ti_pend _ T _ _ _ Hv). Qed.
Lemma top_of_key ts pks conf ret : tinv ts -> keyed of_key pks ret -> keyed of_key pks (proc_top pks conf (reverse (ts_pend ts)) ret).1.
Proof. intros T. apply proc_top_keyed. intros s pk v Hv. apply (proj1 (version_reverse _ _ _ _)) in Hv. by destruct (ti_pend _ T _ _ _ Hv). Qed.

(** ** Answers are delivered content *)
Section serve.
Context (E : ext) (X : lz4x) (L : list tsop) (HW : calm_world E L).
Lemma orig_live o a x ix ctr ix' ctr' : o ∈ L -> op_acct o = Some a -> account_type E a ix ctr = Done (Some (x, ix', ctr')) -> (forall q, x <> TPDeleted q) ->
  exists p v, live_with E a p v.
Proof.
  intros Ho Ha Ht Hx. apply account_type_inv in Ht as [(-> & _)|(Hl & p & v & Hown & Hv & _)]; [by destruct (Hx (d_pubkey a))|].
  exists p, v. destruct HW as (_ & _ & Hd & _). destruct (Hd o a Ho Ha) as (v' & Hv' & Hlen). assert (v' = v) as -> by congruence. by constructor.
Qed.
Lemma compact_elem l q : q <> 0 -> q ∈ compact l <-> q ∈ l.
Proof.
  intros Hq. unfold compact, live_signers. rewrite elem_of_app, elem_of_list_filter, elem_of_replicate. split; [intros [[_ ?]|[? _]]; done|]. intros H. left. split; [|done].
  try done.
Qed.
Lemma render_genuine ts x slot wv b : ginv E L ts -> orig E L x -> (forall t, x = TPToken t -> is_Some (ts_mints ts !! ta_mint t) /\ row_of E L ts t) -> tpa_to_acct x slot wv (ts_mints ts) = Done (Some b) ->
  genuine E L (tpa_pubkey x) b /\ d_slot b = slot.
Proof.
  intros Hg (o & Ho & Hcf) Htk Hb. pose proof (gi_t _ _ _ Hg) as T. destruct x as [t|m|m pk|pk]; [| | |done].
  - destruct (Htk t eq_refl) as ([m Hm] & o' & a & p & v & r & Ho' & Ha & Hl & Hu & Ht & Hix). rewrite Ht in Hb. simpl in Hb.
    rewrite (token_back E a p v r (ta_mint t) (ts_mints ts) m slot wv Hl Hu Hm) in Hb.
    2:{ apply (ti_mints _ T) in Hm. destruct (ti_ix _ T) as [Hinj _]. by eapply Hinj. }
    injection Hb as <-. split; [|done]. simpl. rewrite Ht. split; [done|]. exists o', a, v. eexists. split; [done|]. split; [done|]. split; [done|]. split; [by apply Hl|].
    split; [done|]. split; [by apply Hl|]. split; [done|]. right; left. exists r, (norm_delegated r). split; [done|]. split; [by apply unpack_pack_account, norm_ok; eapply unpack_account_ok|].
    repeat (split; [done|]). intros [d Hd]. unfold norm_delegated. simpl. by rewrite Hd.
  - destruct Hcf as (a & ix & ctr & ix' & ctr' & Ha & Hpk & Hix & Hty). destruct (orig_live o a _ _ _ _ _ Ho Ha Hty) as (p & v & Hl); [done|]. rewrite (type_live _ _ _ _ _ _ Hl) in Hty.
    destruct (unpack_mint v) as [r|] eqn:Hu; [|destruct (unpack_account v); [destruct (mint_index _ _ _) as [[??]?]; done|destruct (unpack_multisig v); done]].
    injection Hty as <- _ _. simpl in Hb. rewrite (mint_back a p r slot wv (lw_owner _ _ _ _ Hl)) in Hb. injection Hb as <-. split; [|done]. split; [done|]. exists o, a, v. eexists.
    split; [done|]. split; [done|]. split; [done|]. split; [by apply Hl|]. split; [done|]. split; [by apply Hl|]. split; [done|]. left. exists r. split; [done|].
    by apply unpack_pack_mint; eapply unpack_mint_ok.
  - destruct Hcf as (a & ix & ctr & ix' & ctr' & Ha & Hpk & Hix & Hty). destruct (orig_live o a _ _ _ _ _ Ho Ha Hty) as (p & v & Hl); [done|]. rewrite (type_live _ _ _ _ _ _ Hl) in Hty.
    destruct (unpack_mint v) as [r|] eqn:Hu1; [done|]. destruct (unpack_account v) as [r|] eqn:Hu2; [destruct (mint_index _ _ _) as [[??]?]; done|]. destruct (unpack_multisig v) as [r|] eqn:Hu; [|done].
    injection Hty as <- <- _ _. pose proof (unpack_multisig_ok _ _ Hu) as Hr. simpl in Hb. rewrite (multisig_back a p r slot wv (lw_owner _ _ _ _ Hl)) in Hb by apply Hr. cbn [mbind res_bind] in Hb. injection Hb as <-.
    split; [|done]. split; [done|]. exists o, a, v. eexists.
    split; [done|]. split; [done|]. split; [done|]. split; [by apply Hl|]. split; [done|]. split; [by apply Hl|]. split; [done|]. right; right. exists r. eexists. split; [done|].
    split; [apply unpack_pack_multisig|]; [|simpl; do 3 (split; [done|]); intros q; apply compact_elem].
    destruct Hr as (H1 & H2 & H3 & H4). pose proof (live_signers_length (ms_signers r)) as Hle. split; [done|]. split; [done|]. simpl. unfold compact. split.
    + rewrite app_length, replicate_length. lia.
    + apply Forall_app. split; [apply Forall_forall; intros q Hq; apply elem_of_list_filter in Hq as [_ Hq]; by eapply Forall_forall in H4|]. by apply Forall_replicate.
Qed.
Lemma row_genuine ts t slot wv b : ginv E L ts -> row_known E L ts t -> token_to_acct t slot wv (ts_mints ts) = Done (Some b) -> genuine E L (ta_pubkey t) b /\ d_slot b = slot.
Proof.
  intros Hg Hk Hb. pose proof Hb as Hb'. apply token_to_acct_some in Hb' as (Hd & _). destruct (Hk Hd) as [Hm Hr].
  apply (render_genuine ts (TPToken t) slot wv b Hg); [|by intros ? [= <-]|done].
  destruct Hr as (o & a & p & v & r & Ho & Ha & Hl & Hu & Ht & Hix). exists o. split; [done|]. exists a, (ts_mint_ix ts), (ts_ctr ts), (ts_mint_ix ts), (ts_ctr ts). split; [done|].
  destruct HW as [Hok _]. split; [apply (proj1 (Forall_forall _ _)) with (x := o) in Hok; [|done]; destruct o; simpl in *; try done; by injection Ha as ->|].
  split; [apply (ti_ix _ (gi_t _ _ _ Hg))|]. rewrite (type_token E a p v r _ _ Hl Hu). unfold mint_index. rewrite Hix. by rewrite Ht at 2.
Qed.
Definition gen (b : acct) : Prop := genuine E L (d_pubkey b) b.
Lemma genuine_gen pk b : genuine E L pk b -> gen b /\ d_pubkey b = pk.
Proof. intros H. unfold gen. assert (d_pubkey b = pk) as -> by apply H. done. Qed.
Definition out_ok (r : tout) : Prop := match r with OGet (Some b) => gen b | OGpa (ROk l) | OSlot l => Forall gen l | _ => True end.
Definition thg (x : tthr) : Prop :=
  match x with
  | XAdds _ r | XByMint _ _ _ r | XByOwner _ _ _ r | XDelMint _ _ r | XDelByMint _ _ r | XDel2 _ _ r | XDelKey _ _ r | XDelRow _ _ _ r | XDone r => out_ok r
  | XRender _ out _ | XRows _ out _ _ => Forall gen out
  | XOver l _ | XOverPend l _ _ | XOverConf l _ _ => Forall gen l
  | XOverlay l _ out => Forall gen l /\ Forall gen out
  | _ => True
  end.
Lemma thg_shown c l : Forall gen l -> thg (shown c l).
Proof. by destruct c. Qed.
Lemma snoc_gen (o : option acct) out : (forall b, o = Some b -> gen b) -> Forall gen out -> Forall gen (match o with Some x => out ++ [x] | None => out end).
Proof. intros H Ho. destruct o as [x|]; [|done]. apply Forall_app. split; [done|]. constructor; [by apply H|done]. Qed.
Lemma thg_piece ts t ts' t' : ginv E L ts -> tho E L ts t -> thg t -> tpiece E X ts t = Some (Done (ts', t')) -> thg t'.
Proof.
  intros Hg Ht Hs Hp. pose proof (gi_t _ _ _ Hg) as T.
  assert (forall x slot wv b, addable E L ts x -> tpa_to_acct x slot wv (ts_mints ts) = Done (Some b) -> gen b) as Hren.
  { intros x slot wv b (_ & H1 & H2) Hb. by destruct (genuine_gen _ _ (proj1 (render_genuine ts x slot wv b Hg H2 H1 Hb))). }
  assert (forall x slot wv b, row_known E L ts x -> token_to_acct x slot wv (ts_mints ts) = Done (Some b) -> gen b) as Hrow.
  { intros x slot wv b H1 Hb. by destruct (genuine_gen _ _ (proj1 (row_genuine ts x slot wv b Hg H1 Hb))). }
  destruct t; simpl in Hp; simpl in Ht; simpl in Hs; try done.
  - injection Hp as <- <-. by case_bool_decide.
  - injection Hp as <- <-. by destruct (_ || _).
  - destruct (tb_contains _ _) as [o|]; [|done]. cbn [mbind res_bind] in Hp. injection Hp as <- <-. destruct o; [done|by destruct c].
  - destruct (account_type _ _ _ _) as [[[[ty ix] ctr]|]|]; [| |done]; cbn [mbind res_bind] in Hp; injection Hp as <- <-; destruct c as [[]|]; done.
  - destruct (pd_insert _ _ _ _ _). by injection Hp as <- <-.
  - destruct l as [|[tk|m|m pk|pk] l].
    + by injection Hp as <- <-.
    + destruct (tb_save _ _) as [[[tb i] b]|]; [|done]. cbn [mbind res_bind] in Hp. injection Hp as <- <-. by destruct b.
    + apply (inj Some) in Hp. destruct (add_finalized ts (TPMint m)) as [ts1|]; [|done]. cbn [mbind res_bind] in Hp. by injection Hp as <- <-.
    + apply (inj Some) in Hp. destruct (add_finalized ts (TPMulti m pk)) as [ts1|]; [|done]. cbn [mbind res_bind] in Hp. by injection Hp as <- <-.
    + destruct (ts_mint_ix ts !! pk); by injection Hp as <- <-.
  - by injection Hp as <- <-.
  - by injection Hp as <- <-.
  - destruct (ts_mint_ix ts !! pk); by injection Hp as <- <-.
  - destruct (tb_index _ !! _); by injection Hp as <- <-.
  - destruct (tb_del_row _ _ _); [|done]. cbn [mbind res_bind] in Hp. by injection Hp as <- <-.
  - destruct c; injection Hp as <- <-; [constructor|by destruct (_ <? _)..].
  - by injection Hp as <- <-.
  - by injection Hp as <- <-.
  - injection Hp as <- <-. destruct (sm_get _ _); [constructor|done].
  - injection Hp as <- <-. constructor.
  - by injection Hp as <- <-.
  - by injection Hp as <- <-.
  - destruct (pd_finalize _ _). injection Hp as <- <-. constructor.
  - destruct Ht as [Hq _]. destruct q as [|[[x s] wv] q]; [by injection Hp as <- <-|]. destruct (tpa_to_acct x s wv (ts_mints ts)) as [o|] eqn:Ho; [|done]. cbn [mbind res_bind] in Hp. injection Hp as <- <-.
    apply snoc_gen; [|done]. intros b ->. apply Forall_cons in Hq as [Hx _]. by eapply Hren.
  - destruct c; by injection Hp as <- <-.
  - apply (inj Some) in Hp. destruct c; [|by injection Hp as <- <-..]. destruct (proc_top _ _ _ _) as [ret more]. destruct more; [by injection Hp as <- <-|].
    destruct (head ret) as [o|]; [|done]. cbn [unwrap mbind res_bind] in Hp. injection Hp as <- <-. by destruct o as [[[ty wv] s]|].
  - apply (inj Some) in Hp. destruct (conf_walk _ _ _ _ _) as [r|]; [|done]. cbn [unwrap mbind res_bind] in Hp. destruct (head r) as [o|]; [|done]. cbn [unwrap mbind res_bind] in Hp.
    injection Hp as <- <-. by destruct o as [[[ty wv] s]|].
  - destruct (tpa_to_acct ty slot 0 (ts_mints ts)) as [o|] eqn:Ho; [|done]. cbn [mbind res_bind] in Hp. injection Hp as <- <-. destruct o as [b|]; [|done]. by eapply Hren.
  - destruct (ts_multi ts !! pk) as [m|] eqn:Hm; [|by injection Hp as <- <-]. destruct (multisig_to_acct m pk (ts_fin ts) 0) as [b|] eqn:Hb; [|done]. cbn [mbind res_bind] in Hp. injection Hp as <- <-.
    destruct (genuine_gen (tpa_pubkey (TPMulti m pk)) b) as [? _]; [|done]. apply (render_genuine ts (TPMulti m pk) (ts_fin ts) 0 b Hg); [by eapply gi_mu|done|]. simpl. by rewrite Hb.
  - destruct (ts_mint_ix ts !! pk) as [i|] eqn:Hi; [|by injection Hp as <- <-]. destruct (ts_mints ts !! i) as [m|] eqn:Hm; [|done]. cbn [unwrap mbind res_bind] in Hp. injection Hp as <- <-.
    destruct (genuine_gen (tpa_pubkey (TPMint m)) (mint_to_acct m (ts_fin ts) 0)) as [? _]; [|done]. apply (render_genuine ts (TPMint m) (ts_fin ts) 0 _ Hg); [by eapply gi_mi|done|done].
  - destruct (tb_get _ _) as [o|]; [|done]. cbn [mbind res_bind] in Hp. injection Hp as <- <-. destruct o as [tk|]; [|done]. by destruct (ta_deleted tk).
  - by injection Hp as <- <-.
  - destruct (token_to_acct t slot 0 (ts_mints ts)) as [o|] eqn:Ho; [|done]. cbn [mbind res_bind] in Hp. injection Hp as <- <-. destruct o as [b|]; [|done]. by eapply Hrow.
  - injection Hp as <- <-. destruct (_ && _); [done|]. destruct fl as [cs|]; [|done]. destruct (owner_mint_filter p cs) as [[o|] [m|]]; [done..|]. by case_bool_decide.
  - injection Hp as <- <-. by destruct m.
  - destruct (ts_mint_ix ts !! m); [|done]. by injection Hp as <- <-.
  - destruct ixs as [ixs|]; [|injection Hp as <- <-; by apply thg_shown]. destruct (tb_by_index _ _); [|done]. cbn [mbind res_bind] in Hp. injection Hp as <- <-. constructor.
  - destruct (ts_mint_ix ts !! m) as [i|]; [|injection Hp as <- <-; by apply thg_shown]. destruct (ts_by_mint ts !! i) as [ixs|]; [|injection Hp as <- <-; by apply thg_shown].
    destruct (tb_by_index _ _); [|done]. cbn [mbind res_bind] in Hp. injection Hp as <- <-. constructor.
  - destruct (keep_all _ _ _) as [r|] eqn:Hk; [|done]. cbn [mbind res_bind] in Hp. injection Hp as <- <-. apply thg_shown. apply Forall_forall. intros b Hb.
    apply (keep_all_elem _ _ _ _ Hk) in Hb as [Hb _]. apply elem_of_list_fmap in Hb as ([i m] & -> & Hm). apply elem_of_map_to_list in Hm.
    destruct (genuine_gen (tpa_pubkey (TPMint m)) (mint_to_acct m fin 0)) as [? _]; [|done]. apply (render_genuine ts (TPMint m) fin 0 _ Hg); [by eapply gi_mi|done|done].
  - destruct q as [|tk q]; [injection Hp as <- <-; by apply thg_shown|]. destruct (token_to_acct tk fin 0 (ts_mints ts)) as [o|] eqn:Ho; [|done]. cbn [mbind res_bind] in Hp. injection Hp as <- <-.
    apply snoc_gen; [|done]. intros b ->. apply Forall_cons in Ht as [Hx _]. by eapply Hrow.
  - by injection Hp as <- <-.
  - injection Hp as <- <-. destruct c; [|done..]. destruct (proc_top _ _ _ _) as [ret more]. by destruct more.
  - destruct (conf_walk _ _ _ _ _); [|done]. cbn [unwrap mbind res_bind] in Hp. by injection Hp as <- <-.
  - destruct Hs as [Hl Ho]. destruct l as [|a l]; [destruct ps; injection Hp as <- <-; simpl; by rewrite app_nil_r|]. destruct ps as [|o ps]; [injection Hp as <- <-; simpl; by apply Forall_app|].
    apply Forall_cons in Hl as [Ha Hl]. destruct o as [[[ty wv] s]|]; cbn [mbind res_bind] in Hp.
    + destruct (tpa_to_acct ty s wv (ts_mints ts)) as [x|] eqn:Hx; [|done]. cbn [mbind res_bind] in Hp. injection Hp as <- <-. split; [done|]. apply snoc_gen; [|done]. intros b ->.
      eapply Hren; [|done]. apply (Ht ((ty, wv), s)). left.
    + injection Hp as <- <-. split; [done|]. apply Forall_app. split; [done|]. by constructor.
Qed.
(** A read of [pk]. *)
Definition asked (pk : pubkey) (x : tthr) : Prop :=
  match x with
  | XGet q _ | XPend q _ _ | XGetFin q | XGetMint q | XGetRow q => q = pk
  | XPendConf q _ ret => q = pk /\ keyed of_key [pk] ret
  | XShow ty _ => tpa_pubkey ty = pk
  | XRowSlot t | XRow t _ => ta_pubkey t = pk
  | XDone (OGet o) => forall b, o = Some b -> d_pubkey b = pk
  | _ => False
  end.
Lemma head_of_key pk ret x : keyed of_key [pk] ret -> head ret = Some (Some x) -> tpa_pubkey x.1.1 = pk.
Proof. intros Hk Hh. destruct ret as [|o ret]; [done|]. injection Hh as ->. by destruct (Hk 0%nat x eq_refl) as (q & [= <-] & ?). Qed.
Lemma asked_piece pk ts t ts' t' : ginv E L ts -> tho E L ts t -> asked pk t -> tpiece E X ts t = Some (Done (ts', t')) -> asked pk t'.
Proof.
  intros Hg Ht Hs Hp. pose proof (gi_t _ _ _ Hg) as T. destruct t; try done; simpl in Hp; simpl in Ht; simpl in Hs.
  - destruct c; by injection Hp as <- <-.
  - subst pk0. apply (inj Some) in Hp. destruct c; [|injection Hp as <- <-; split; [done|apply (keyed_none of_key [pk] 1)]..].
    pose proof (top_of_key ts [pk] conf [None] T (keyed_none of_key [pk] 1)) as Hk. destruct (proc_top _ _ _ _) as [ret more]. simpl in Hk. destruct more; [by injection Hp as <- <-|].
    destruct (head ret) as [o|] eqn:Hh; [|done]. cbn [unwrap mbind res_bind] in Hp. injection Hp as <- <-. destruct o as [[[ty wv] s]|]; [|done]. by apply (head_of_key _ _ _ Hk Hh).
  - destruct Hs as [-> Hk]. apply (inj Some) in Hp. destruct (conf_walk _ _ _ _ _) as [r|] eqn:Hr; [|done]. apply (walk_of_key _ _ _ _ _ _ T Hk) in Hr. cbn [unwrap mbind res_bind] in Hp.
    destruct (head r) as [o|] eqn:Hh; [|done]. cbn [unwrap mbind res_bind] in Hp. injection Hp as <- <-. destruct o as [[[ty wv] s]|]; [|done]. by apply (head_of_key _ _ _ Hr Hh).
  - destruct (tpa_to_acct ty slot 0 (ts_mints ts)) as [o|] eqn:Ho; [|done]. cbn [mbind res_bind] in Hp. injection Hp as <- <-. intros b ->.
    destruct Ht as (_ & H1 & H2). destruct (genuine_gen _ _ (proj1 (render_genuine ts ty slot 0 b Hg H2 H1 Ho))). congruence.
  - subst pk0. destruct (ts_multi ts !! pk) as [m|] eqn:Hm; [|by injection Hp as <- <-]. destruct (multisig_to_acct m pk (ts_fin ts) 0) as [b|] eqn:Hb; [|done]. cbn [mbind res_bind] in Hp. injection Hp as <- <-.
    intros b0 [= <-]. unfold multisig_to_acct in Hb. destruct (_ <=? _)%nat; [|done]. by injection Hb as <-.
  - subst pk0. destruct (ts_mint_ix ts !! pk) as [i|] eqn:Hi; [|by injection Hp as <- <-]. destruct (ts_mints ts !! i) as [m|] eqn:Hm; [|done]. cbn [unwrap mbind res_bind] in Hp. injection Hp as <- <-.
    intros b0 [= <-]. simpl. apply (ti_mints _ T) in Hm. destruct (ti_ix _ T) as [Hinj _]. by eapply Hinj.
  - subst pk0. destruct (rep_exists _ (ti_table _ T)) as [m0 Hrep]. rewrite (tb_get_spec _ _ pk (ti_table _ T) Hrep) in Hp. cbn [mbind res_bind] in Hp. injection Hp as <- <-.
    destruct (m0 !! pk) as [tk|] eqn:Hk; [|done]. apply Hrep in Hk as (i & _ & Hk & _). by destruct (ta_deleted tk).
  - by injection Hp as <- <-.
  - destruct (token_to_acct t slot 0 (ts_mints ts)) as [o|] eqn:Ho; [|done]. cbn [mbind res_bind] in Hp. injection Hp as <- <-. intros b ->.
    apply token_to_acct_some in Ho as (_ & Hk & _). congruence.
Qed.
(** All calls of an execution, and one of them. *)
Lemma reach_thg cs cs' : treach E X (calm_call E L) cs cs' -> cinv E L cs -> Forall thg (tc_thr cs) -> Forall thg (tc_thr cs').
Proof.
  induction 1 as [cs|cs j t ts t' cs2 Hj Hp _ IH|cs t cs2 Hc Ho _ IH]; intros Hi Hs; [done| |].
  - destruct (cinv_step E X L HW _ _ _ _ _ Hi Hj Hp) as [Hi' _]. apply IH; [done|]. simpl. apply Forall_insert; [done|]. destruct Hi as [Hg Hth].
    eapply thg_piece; [done| | |done]; by eapply Forall_lookup_1.
  - apply IH; [by apply cinv_call|]. simpl. apply Forall_app. split; [done|]. constructor; [|done]. by destruct t.
Qed.
Lemma reach_asked pk cs cs' j : treach E X (calm_call E L) cs cs' -> cinv E L cs -> forall t, tc_thr cs !! j = Some t -> asked pk t -> exists t', tc_thr cs' !! j = Some t' /\ asked pk t'.
Proof.
  induction 1 as [cs|cs k u ts u' cs2 Hj Hp _ IH|cs u cs2 Hc Ho _ IH]; intros Hi t Ht Ha; [eauto| |].
  - destruct (cinv_step E X L HW _ _ _ _ _ Hi Hj Hp) as [Hi' _]. destruct Hi as [Hg Hth]. destruct (decide (k = j)) as [->|Hne].
    + assert (u = t) as -> by congruence. apply (IH Hi' u'); [simpl; apply list_lookup_insert; by eapply lookup_lt_Some|]. eapply asked_piece; [done| |done|done]. by eapply Forall_lookup_1.
    + apply (IH Hi' t); [|done]. simpl. by rewrite list_lookup_insert_ne.
  - apply (IH (cinv_call E L HW _ _ Hi Hc Ho) t); [|done]. simpl. rewrite lookup_app_l; [done|]. by eapply lookup_lt_Some.
Qed.
End serve.
