(** Concurrent calls of the token store: the confirmed and the finalized slot. *)
From Verif Require Import Base SMap DataModel BincodeModel FilterModel FilterProofs StoreModel TokenModel SplModel TokenUtilsModel TokenUtilsProofs TokenPendModel TokenStoreModel TokenStoreSpec
  TokenStoreQuery TokenStoreQueryProps TokenConcModel TokenConcSpec.
#[local] Opaque to_bytes from_bytes peek_pubkey conf_walk tb_save tb_get tb_contains tb_by_index account_type tpa_to_acct token_to_acct multisig_to_acct spl_token_id spl_2022_id.

Lemma token_slot t slot wv mints b : token_to_acct t slot wv mints = Done (Some b) -> d_slot b = slot.
Proof.
  #[local] Transparent token_to_acct.
  unfold token_to_acct. destruct (ta_deleted t); [done|]. destruct (mints !! ta_mint t) as [m|]; [|done]. cbn [unwrap mbind res_bind]. set (v := match ta_program t with TokenP => _ | _ => _ end). clearbody v. by intros [= <-].
  #[local] Opaque token_to_acct.
Qed.

Section slots.
Context (E : ext) (X : lz4x).
Definition conf_ok (ts : tstore) (x : tthr) : Prop := match x with XConfStore si => ts_conf ts < si_slot si | XFinInfo _ si | XFinStore _ si => ts_fin ts < si_slot si | _ => True end.
Record sinv (cs : tconc) : Prop := SInv {
  sv_one : forall i j u v, tc_thr cs !! i = Some u -> tc_thr cs !! j = Some v -> slotting u = true -> slotting v = true -> i = j;
  sv_thr : Forall (conf_ok (tc_ts cs)) (tc_thr cs);
}.
Lemma sinv_empty : sinv tc_empty.
Proof. split; [done|constructor]. Qed.
Lemma slots_piece ts t ts' t' : tpiece E X ts t = Some (Done (ts', t')) ->
  (slotting t' = true -> slotting t = true) /\ (slotting t = false -> ts_conf ts' = ts_conf ts /\ ts_fin ts' = ts_fin ts) /\
  (conf_ok ts t -> conf_ok ts' t' /\ ts_conf ts <= ts_conf ts' /\ ts_fin ts <= ts_fin ts').
Proof.
  intros Hp. destruct t; simpl in Hp; try done; unfold mbind, res_bind, unwrap, add_finalized, shown, set_pend, set_ix, set_mints, set_multi, set_conf, set_fin, set_table in Hp;
    repeat match type of Hp with context [match ?x with _ => _ end] => destruct x eqn:?; try discriminate Hp end;
    try (injection Hp as <- <-; simpl; split_and!; [done|done|]; intros; split_and!; (done || lia)).
  destruct (ts_mint_ix ts !! ma_pubkey m); injection Heqr0 as <-; injection Hp as <- <-; simpl; (split; [done|]); (split; [done|]); intros; split_and!; (done || lia).
Qed.
Lemma sinv_step cs j t ts t' : sinv cs -> tc_thr cs !! j = Some t -> tpiece E X (tc_ts cs) t = Some (Done (ts, t')) ->
  sinv (TConc ts (<[j := t']> (tc_thr cs))) /\ ts_conf (tc_ts cs) <= ts_conf ts /\ ts_fin (tc_ts cs) <= ts_fin ts.
Proof.
  intros [H1 H2] Hj Hp. destruct (slots_piece _ _ _ _ Hp) as (S1 & S2 & S3). destruct (S3 (Forall_lookup_1 _ _ _ _ H2 Hj)) as (S4 & S5 & S6). split; [|done].
  assert (forall i u, <[j := t']> (tc_thr cs) !! i = Some u -> slotting u = true -> exists u', tc_thr cs !! i = Some u' /\ slotting u' = true) as Hb.
  { intros i u Hi Hu. destruct (decide (j = i)) as [->|Hne]; [|rewrite list_lookup_insert_ne in Hi by done; eauto].
    rewrite list_lookup_insert in Hi by (by eapply lookup_lt_Some). injection Hi as <-. eauto. }
  split; simpl.
  - intros i k u v Hi Hk Hu Hv. destruct (Hb _ _ Hi Hu) as (u' & ? & ?). destruct (Hb _ _ Hk Hv) as (v' & ? & ?). by eapply H1.
  - apply Forall_lookup_2. intros i u Hi. destruct (decide (j = i)) as [->|Hne].
    + rewrite list_lookup_insert in Hi by (by eapply lookup_lt_Some). by injection Hi as <-.
    + rewrite list_lookup_insert_ne in Hi by done. pose proof (Forall_lookup_1 _ _ _ _ H2 Hi) as Hc. destruct (slotting t) eqn:Ht.
      * destruct (slotting u) eqn:Hu; [by destruct Hne; eapply H1|]. by destruct u.
      * destruct S2 as [S2 S2']; [done|]. unfold conf_ok. by rewrite S2, S2'.
Qed.
Lemma sinv_call cs t : sinv cs -> is_call t = true -> slots_apart cs t -> sinv (TConc (tc_ts cs) (tc_thr cs ++ [t])).
Proof.
  intros [H1 H2] Hc Ha. split; simpl.
  - assert (forall i u, (tc_thr cs ++ [t]) !! i = Some u -> slotting u = true -> (tc_thr cs !! i = Some u /\ slotting t = false) \/ (i = length (tc_thr cs) /\ u = t) \/ slotting t = false) as Hb.
    { intros i u Hi Hu. apply lookup_app_Some in Hi as [Hi|[Hl Hi]].
      - destruct (slotting t) eqn:Ht; [|by left]. destruct t; try done. pose proof (Forall_lookup_1 _ _ _ _ (Ha _ _ _ eq_refl) Hi) as Hf. simpl in Hf. congruence.
      - right; left. destruct (i - length (tc_thr cs))%nat eqn:Hn; [|done]. injection Hi as <-. split; [lia|done]. }
    intros i j u v Hi Hj Hu Hv. destruct (slotting t) eqn:Ht.
    + destruct (Hb _ _ Hi Hu) as [[_ ?]|[[-> ->]|?]]; [done| |done]. destruct (Hb _ _ Hj Hv) as [[_ ?]|[[-> ->]|?]]; done.
    + apply lookup_app_Some in Hi as [Hi|[Hl Hi]].
      2:{ destruct (i - length (tc_thr cs))%nat; [|done]. injection Hi as <-. congruence. }
      apply lookup_app_Some in Hj as [Hj|[Hl Hj]]; [by eapply H1|]. destruct (j - length (tc_thr cs))%nat; [|done]. injection Hj as <-. congruence.
  - apply Forall_app. split; [done|]. constructor; [|done]. by destruct t.
Qed.
Lemma reach_sinv cs cs' : treach E X slots_apart cs cs' -> sinv cs -> sinv cs' /\ ts_conf (tc_ts cs) <= ts_conf (tc_ts cs') /\ ts_fin (tc_ts cs) <= ts_fin (tc_ts cs').
Proof.
  induction 1 as [cs|cs j t ts t' cs2 Hj Hp _ IH|cs t cs2 Hc Ho _ IH]; intros Hi.
  - split; [done|]. lia.
  - destruct (sinv_step _ _ _ _ _ Hi Hj Hp) as (Hi' & ? & ?). destruct (IH Hi') as (? & ? & ?). simpl in *. split; [done|]. lia.
  - apply (IH (sinv_call _ _ Hi Hc Ho)).
Qed.
(** The slots in the hands of a finalized read lie between [n] and the finalized slot. *)
Definition within (n hi s : N) : Prop := n <= s <= hi.
Definition lab (n hi : N) (x : tthr) : Prop :=
  match x with
  | XGet _ c | XGpa _ _ c => c = Finalized
  | XGetFin _ | XGetMint _ | XGetRow _ | XRowSlot _ => True
  | XRow _ s => within n hi s
  | XGpaOwner _ _ c s | XGpaOwnerMint _ _ _ c s | XGpaRows _ _ _ c s | XGpaMint _ c s | XGpaAll _ c s => c = Finalized /\ within n hi s
  | XRows _ out c s => c = Finalized /\ within n hi s /\ Forall (within n hi) (d_slot <$> out)
  | XDone r => Forall (within n hi) (slots_of r)
  | _ => False
  end.
Lemma lab_mono n hi hi' x : hi <= hi' -> lab n hi x -> lab n hi' x.
Proof.
  intros Hh. assert (forall s, within n hi s -> within n hi' s) as Hw by (unfold within; lia). assert (forall l, Forall (within n hi) l -> Forall (within n hi') l) as Hf by (intros l Hl; by eapply Forall_impl).
  destruct x; simpl; naive_solver.
Qed.
Lemma lab_piece n ts t ts' t' : n <= ts_fin ts -> lab n (ts_fin ts) t -> tpiece E X ts t = Some (Done (ts', t')) -> ts' = ts /\ lab n (ts_fin ts) t'.
Proof.
  #[local] Transparent multisig_to_acct.
  intros Hn Hl Hp. assert (within n (ts_fin ts) (ts_fin ts)) as Hf by (unfold within; lia). destruct t; try done; simpl in Hp; simpl in Hl.
  - subst c. by injection Hp as <- <-.
  - destruct (ts_multi ts !! pk) as [m|]; [|by injection Hp as <- <-]. unfold multisig_to_acct in Hp. destruct (_ <=? _)%nat; [|done]. cbn [mbind res_bind] in Hp. injection Hp as <- <-. split; [done|]. by apply Forall_singleton.
  - destruct (ts_mint_ix ts !! pk) as [i|]; [|by injection Hp as <- <-]. destruct (ts_mints ts !! i) as [m|]; [|done]. cbn [unwrap mbind res_bind] in Hp. injection Hp as <- <-. split; [done|]. by apply Forall_singleton.
  - destruct (tb_get _ _) as [o|]; [|done]. cbn [mbind res_bind] in Hp. injection Hp as <- <-. split; [done|]. destruct o as [tk|]; [|constructor]. destruct (ta_deleted tk); [constructor|done].
  - by injection Hp as <- <-.
  - destruct (token_to_acct t slot 0 (ts_mints ts)) as [o|] eqn:Ho; [|done]. cbn [mbind res_bind] in Hp. injection Hp as <- <-. split; [done|]. destruct o as [b|]; [|constructor]. simpl.
    apply token_slot in Ho as ->. by apply Forall_singleton.
  - subst c. injection Hp as <- <-. split; [done|]. destruct (_ && _); [constructor|]. destruct fl as [q|]; [|constructor]. destruct (owner_mint_filter p q) as [[o|] [m|]]; [done..|]. case_bool_decide; [done|constructor].
  - destruct Hl as [-> Hl]. injection Hp as <- <-. split; [done|]. by destruct m.
  - destruct Hl as [-> Hl]. destruct (ts_mint_ix ts !! m); [|done]. cbn [unwrap mbind res_bind] in Hp. by injection Hp as <- <-.
  - destruct Hl as [-> Hl]. destruct ixs as [ixs|]; [|injection Hp as <- <-; split; [done|constructor]]. destruct (tb_by_index _ _); [|done]. cbn [mbind res_bind] in Hp. injection Hp as <- <-. split; [done|]. split; [done|]. split; [done|constructor].
  - destruct Hl as [-> Hl]. destruct (ts_mint_ix ts !! m); [|injection Hp as <- <-; split; [done|constructor]]. destruct (ts_by_mint ts !! _); [|injection Hp as <- <-; split; [done|constructor]].
    destruct (tb_by_index _ _); [|done]. cbn [mbind res_bind] in Hp. injection Hp as <- <-. split; [done|]. split; [done|]. split; [done|constructor].
  - destruct Hl as [-> Hl]. destruct (keep_all _ _ _) as [r|] eqn:Hk; [|done]. cbn [mbind res_bind] in Hp. injection Hp as <- <-. split; [done|]. apply Forall_fmap, Forall_forall. intros b Hb.
    apply (keep_all_elem _ _ _ _ Hk) in Hb as [Hb _]. by apply elem_of_list_fmap in Hb as ([i m] & -> & Hm).
  - destruct Hl as (-> & Hl & Ho). destruct q as [|tk q]; [by injection Hp as <- <-|]. destruct (token_to_acct tk fin 0 (ts_mints ts)) as [o|] eqn:Hb; [|done]. cbn [mbind res_bind] in Hp. injection Hp as <- <-.
    split; [done|]. split; [done|]. split; [done|]. destruct o as [b|]; [|done]. rewrite fmap_app. apply Forall_app. split; [done|]. apply token_slot in Hb as <-. by apply Forall_singleton.
Qed.
Lemma reach_lab n cs cs' j : treach E X slots_apart cs cs' -> sinv cs -> n <= ts_fin (tc_ts cs) -> forall t, tc_thr cs !! j = Some t -> lab n (ts_fin (tc_ts cs)) t ->
  exists t', tc_thr cs' !! j = Some t' /\ lab n (ts_fin (tc_ts cs')) t'.
Proof.
  induction 1 as [cs|cs k u ts u' cs2 Hj Hp _ IH|cs u cs2 Hc Ho _ IH]; intros Hi Hn t Ht Ha; [eauto| |].
  - destruct (sinv_step _ _ _ _ _ Hi Hj Hp) as (Hi' & _ & Hf). simpl in IH. specialize (IH Hi' ltac:(lia)). destruct (decide (k = j)) as [->|Hne].
    + assert (u = t) as -> by congruence. apply (IH u'); [simpl; apply list_lookup_insert; by eapply lookup_lt_Some|]. destruct (lab_piece _ _ _ _ _ Hn Ha Hp) as [-> ?]. done.
    + apply (IH t); [simpl; by rewrite list_lookup_insert_ne|]. by eapply lab_mono.
  - apply (IH (sinv_call _ _ Hi Hc Ho) Hn t); [|done]. simpl. rewrite lookup_app_l; [done|]. by eapply lookup_lt_Some.
Qed.
End slots.
