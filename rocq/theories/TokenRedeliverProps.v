(** C112: what a token store hears twice (update_account, process_slot_data, inmemory_token_storage.rs 558-589, 695-738). *)
From Verif Require Import Base SMap DataModel BincodeModel BincodeProofs FilterModel FilterProofs StoreModel TokenModel TokenProofs TokenProps SplModel SplProofs TokenUtilsModel
  TokenUtilsProofs TokenPendModel TokenPendSpec TokenPendProofs TokenPendProps TokenUtilsProps TokenStoreModel TokenStoreSpec TokenStoreProofs TokenStoreViews TokenStoreProps TokenStoreOrder
  TokenStoreQuery TokenStoreQueryProps TokenStoreSafe TokenAnswerProps TokenArrivalProps TokenRenumberProps.
#[local] Opaque to_bytes from_bytes peek_pubkey.

(** ** Updates below finalized *)
(** The pending part has this version of the account, or a newer one of the same slot. *)
Definition held (p : pend) (s : N) (pk : pubkey) (wv : N) : Prop := exists b x w, sm_get s p = Some b /\ ps_accounts b !! pk = Some (x, w) /\ wv <= w.
Lemma held_insert p s pk wv ty : held p s pk wv -> pd_insert p pk ty wv s = (p, false).
Proof. intros (b & x & w & Hb & Hx & Hw). unfold pd_insert. rewrite Hb, Hx. destruct (N.ltb_spec w wv); [lia|done]. Qed.
Lemma insert_held p pk ty wv s : held (pd_insert p pk ty wv s).1 s pk wv.
Proof.
  unfold pd_insert. destruct (sm_get s p) as [b|] eqn:Hb.
  - destruct (ps_accounts b !! pk) as [[x w]|] eqn:Hx.
    + destruct (N.ltb_spec w wv); cbn [fst].
      * eexists _, _, _. rewrite sm_get_put. split; [done|]. cbn [ps_accounts]. rewrite lookup_insert. split; [done|]. lia.
      * by exists b, x, w.
    + eexists _, _, _. cbn [fst]. rewrite sm_get_put. split; [done|]. cbn [ps_accounts]. rewrite lookup_insert. split; [done|]. lia.
  - eexists _, _, _. cbn [fst]. rewrite sm_get_put. split; [done|]. cbn [ps_accounts]. rewrite lookup_singleton. split; [done|]. lia.
Qed.
Lemma held_stays p s pk wv pk' ty wv' s' : held p s pk wv -> held (pd_insert p pk' ty wv' s').1 s pk wv.
Proof.
  intros (b & x & w & Hb & Hx & Hw). destruct (decide (s' = s)) as [->|Hne].
  - unfold pd_insert. rewrite Hb. destruct (decide (pk' = pk)) as [->|Hp].
    + rewrite Hx. destruct (N.ltb_spec w wv'); cbn [fst]; [|by exists b, x, w]. eexists _, _, _. rewrite sm_get_put. split; [done|]. cbn [ps_accounts]. rewrite lookup_insert. split; [done|]. lia.
    + assert (held (sm_put s (PSlot (<[pk' := (ty, wv')]> (ps_accounts b)) (ps_parent b)) p) s pk wv) as H. { eexists _, _, _. rewrite sm_get_put. split; [done|]. cbn [ps_accounts]. rewrite lookup_insert_ne by done. by split. }
      destruct (ps_accounts b !! pk') as [[y v]|]; [|done]. destruct (v <? wv'); [done|]. by exists b, x, w.
  - exists b, x, w. split; [|by split]. unfold pd_insert. destruct (sm_get s' p) as [b'|]; [destruct (ps_accounts b' !! pk') as [[y v]|]; [destruct (v <? wv')|]|]; cbn [fst]; [by rewrite sm_get_put_ne|done|by rewrite sm_get_put_ne..].
Qed.
Lemma held_info p s pk wv si : held p s pk wv -> held (pd_slot_info p si) s pk wv.
Proof. intros (b & x & w & Hb & Hx & Hw). unfold held. rewrite info_get. destruct (decide (s = si_slot si)) as [->|]; [|by exists b, x, w]. rewrite Hb. by eexists _, x, w. Qed.
(** Calls that finalize nothing. *)
Definition below (o : tsop) : Prop := match o with TUpdate _ c | TSlot _ _ c => c <> Finalized | _ => False end.
Definition keeps (ts ts' : tstore) : Prop := (forall m i, ts_mint_ix ts !! m = Some i -> ts_mint_ix ts' !! m = Some i) /\ forall s pk wv, held (ts_pend ts) s pk wv -> held (ts_pend ts') s pk wv.
Lemma as_read_keeps o a ix ctr ty ix' ctr' : as_read o a ix ctr = Some (ty, ix', ctr') -> forall m i, ix !! m = Some i -> ix' !! m = Some i.
Proof.
  destruct o as [[t|[[p s] x]]|]; cbn [as_read]; [by intros [= _ <- _]| |done]. unfold mint_index. destruct (ix !! sa_mint s) as [j|] eqn:Hj; intros [= _ <- _]; [done|]. intros m i Hm. rewrite lookup_insert_ne; [done|]. intros <-. congruence.
Qed.
Lemma step_keeps E X ts o ts' : below o -> ts_step E X ts o = Done ts' -> keeps ts ts'.
Proof.
  destruct o as [a c|a|ord si c|p b]; cbn [below ts_step]; [|done| |done]; intros Hc.
  - unfold ts_update. destruct (is_token ts a) as [[]|]; cbn [mbind res_bind]; [|by intros [= <-]|done]. destruct (account_reading E a) as [k Hk]. rewrite Hk. destruct k as [o|]; cbn [mbind res_bind]; [|done].
    destruct (as_read o a _ _) as [[[ty ix] ctr]|] eqn:Ho; cbn [mbind res_bind]; [|by intros [= <-]]. change (ts_pend (set_ix ts ix ctr)) with (ts_pend ts). pose proof (fun s pk wv => held_stays (ts_pend ts) s pk wv (d_pubkey a) ty (d_wv a) (d_slot a)) as Hh.
    destruct (pd_insert _ _ _ _ _) as [p b]. cbn [fst] in Hh. intros H. assert (ts' = set_pend (set_ix ts ix ctr) p) as ->. { destruct c; [| |done]; cbn [mbind res_bind] in H; by injection H as <-. } split; [exact (as_read_keeps _ _ _ _ _ _ _ Ho)|exact Hh].
  - destruct c; [| |done]; cbn [ts_slot].
    + cbn [mbind res_bind]. intros [= <-]. split; [done|]. intros s pk wv. apply held_info.
    + set (u := if ts_conf ts <? si_slot si then _ else _). assert (keeps ts u) as [H1 H2]. { unfold u. destruct (_ <? _); [|done]. split; [done|]. intros s pk wv. apply held_info. }
      unfold pd_for_slot. destruct (sm_get _ _) as [b|]; cbn [mbind res_bind].
      * destruct (to_accts _ _) as [l|]; cbn [mbind res_bind]; [|done]. intros [= <-]. done.
      * intros [= <-]. split; [done|]. intros s pk wv H. apply held_info. by apply H2.
Qed.
Lemma run_keeps E X l : forall ts ts', Forall below l -> ts_run E X ts l = Done ts' -> keeps ts ts'.
Proof.
  induction l as [|o l IH]; intros ts ts' Hall; cbn [ts_run]; [by intros [= <-]|]. apply Forall_cons in Hall as [Ho Hall]. destruct (ts_step E X ts o) as [t|] eqn:Hs; cbn [mbind res_bind]; [|done]. intros Hr.
  destruct (step_keeps _ _ _ _ _ Ho Hs) as [H1 H2], (IH _ _ Hall Hr) as [H3 H4]. split; [intros m i H; by apply H3, H1|intros s pk wv H; by apply H4, H2].
Qed.
(** An update below finalized of an account of a token program, heard again any time before something is finalized, whatever else was heard in between, changes nothing and is answered with false. *)
Theorem C112_update_again : forall E X ts a c ts1 r l ts2 c',
  c <> Finalized -> d_owner a = spl_token_id \/ d_owner a = spl_2022_id -> ts_update E ts a c = Done (ts1, r) ->
  Forall (fun o => match o with TUpdate _ c | TSlot _ _ c => c <> Finalized | _ => False end) l -> ts_run E X ts1 l = Done ts2 -> c' <> Finalized ->
  ts_update E ts2 a c' = Done (ts2, false).
Proof.
  intros E X ts a c ts1 r l ts2 c' Hc Ho Hu Hl Hr Hc'. destruct (run_keeps _ _ _ _ _ Hl Hr) as [Hm Hh]. destruct (account_reading E a) as [k Hk]. unfold ts_update in Hu |- *. rewrite !owner_is_token in Hu |- * by done. cbn [mbind res_bind] in Hu |- *.
  rewrite Hk in Hu |- *. destruct k as [o|]; cbn [mbind res_bind] in Hu |- *; [|done]. destruct (as_read o a (ts_mint_ix ts) (ts_ctr ts)) as [[[ty ix] ctr]|] eqn:Hread.
  - change (ts_pend (set_ix ts ix ctr)) with (ts_pend ts) in Hu. pose proof (insert_held (ts_pend ts) (d_pubkey a) ty (d_wv a) (d_slot a)) as Hin. destruct (pd_insert _ _ _ _ _) as [p b] eqn:Hp. cbn [fst] in Hin.
    assert (ts1 = set_pend (set_ix ts ix ctr) p) as ->. { destruct c; [| |done]; by injection Hu as <- _. } cbn [ts_mint_ix ts_pend set_pend set_ix] in Hm, Hh. apply Hh in Hin.
    assert (exists ty', as_read o a (ts_mint_ix ts2) (ts_ctr ts2) = Some (ty', ts_mint_ix ts2, ts_ctr ts2)) as (ty' & ->).
    { destruct o as [[t|[[q s] x]]|]; cbn [as_read] in Hread |- *; [eauto| |done]. unfold mint_index in Hread |- *. destruct (ts_mint_ix ts !! sa_mint s) as [i|] eqn:Hi.
      - injection Hread as _ <- _. rewrite (Hm _ _ Hi). eauto.
      - injection Hread as _ <- _. rewrite (Hm (sa_mint s) (ts_ctr ts)) by apply lookup_insert. eauto. }
    change (ts_pend (set_ix ts2 (ts_mint_ix ts2) (ts_ctr ts2))) with (ts_pend ts2). rewrite (held_insert _ _ _ _ _ Hin). assert (set_pend (set_ix ts2 (ts_mint_ix ts2) (ts_ctr ts2)) (ts_pend ts2) = ts2) as -> by (by destruct ts2). by destruct c'.
  - destruct o as [[t|[[q s] x]]|]; cbn [as_read] in Hread |- *; [done| |done]. by destruct (mint_index _ _ _) as [[? ?] ?].
Qed.
Print Assumptions C112_update_again.

(** ** The same with finalized notifications in between *)
Lemma pend_step E X (P : pend -> Prop) (Q : tsop -> Prop) ts o ts' : ts_step E X ts o = Done ts' -> Q o -> sm_sorted (ts_pend ts) -> P (ts_pend ts) ->
  (forall p pk a wv t, P p -> P (pd_insert p pk a wv t).1) -> (forall ord si c p, Q (TSlot ord si c) -> P p -> P (pd_slot_info p si)) -> (forall ord si p, Q (TSlot ord si Finalized) -> sm_sorted p -> P p -> P (pd_finalize p (si_slot si)).1) -> P (ts_pend ts').
Proof.
  intros H HQ Hs HP Hi Hn Hf. destruct o as [a c|a|ord si c|p b]; simpl in H.
  - unfold ts_update in H. destruct (is_token ts a) as [k|]; [|done]. cbn [mbind res_bind] in H. destruct k; [|by injection H as <-].
    destruct (account_type _ _ _ _) as [[[[ty ix] ctr]|]|]; cbn [mbind res_bind] in H; [|by injection H as <-|done]. cbn [ts_pend set_ix] in H. specialize (Hi _ (d_pubkey a) ty (d_wv a) (d_slot a) HP).
    destruct c; [destruct (pd_insert _ _ _ _ _); injection H as <-; exact Hi|destruct (pd_insert _ _ _ _ _); injection H as <-; exact Hi|].
    destruct (add_finalized _ _) as [t|] eqn:Ha; [|done]. injection H as <-. by rewrite (add_finalized_pend _ _ _ Ha).
  - unfold ts_init in H. destruct (is_token ts a) as [k|]; [|done]. cbn [mbind res_bind] in H. destruct k; [|by injection H as <-].
    destruct (account_type _ _ _ _) as [[[[ty ix] ctr]|]|]; cbn [mbind res_bind] in H; [|by injection H as <-|done]. by rewrite (add_finalized_pend _ _ _ H).
  - unfold ts_slot in H. specialize (Hn ord si c). destruct c.
    + injection H as <-. cbn [ts_pend set_pend]. by apply Hn.
    + set (u := if ts_conf ts <? si_slot si then _ else _) in H. assert (P (ts_pend u)) as Hu by (unfold u; destruct (_ <? _); [by apply Hn|done]).
      destruct (pd_for_slot _ _ _) as [[p l]|] eqn:Hp; [|done]. injection H as <-. cbn [ts_pend set_pend]. apply pd_for_slot_pend in Hp as ->. destruct (sm_get _ _); [done|by apply Hn].
    + set (u := if ts_fin ts <? si_slot si then _ else _) in H. assert (sm_sorted (ts_pend u) /\ P (ts_pend u)) as [Hsu Hu] by (unfold u; destruct (_ <? _); [split; [by apply pd_slot_info_sorted|by apply Hn]|done]).
      specialize (Hf _ si _ HQ Hsu Hu). destruct (pd_finalize _ _) as [p m]. cbn [fst] in Hf. destruct (to_accts _ _) as [r|]; [|done]. cbn [mbind res_bind] in H. destruct (add_all _ _) as [t|] eqn:Ha; [|done]. injection H as <-.
      by rewrite (add_all_pend _ _ _ Ha).
  - unfold ts_load in H. destruct (lz4_decompress _ _) as [d|]; [|by injection H as <-]. destruct (d_snap d) as [[s r]|]; [|by injection H as <-].
    destruct (load_content ts s) as [t|] eqn:Hl; [|done]. injection H as <-. by rewrite (load_pend _ _ _ Hl).
Qed.
Definition older (t : N) (o : tsop) : Prop := match o with TSlot _ si c => si_parent si < si_slot si /\ (c = Finalized -> si_slot si < t) | _ => True end.
Lemma run_held E X t pk wv l : forall ts ts', Forall (older t) l -> sm_sorted (ts_pend ts) -> pdesc (ts_pend ts) -> held (ts_pend ts) t pk wv -> ts_run E X ts l = Done ts' -> held (ts_pend ts') t pk wv.
Proof.
  induction l as [|o l IH]; intros ts ts' Hall Hs Hd Hh; cbn [ts_run]; [by intros [= <-]|]. apply Forall_cons in Hall as [Ho Hall]. destruct (ts_step E X ts o) as [u|] eqn:Hst; cbn [mbind res_bind]; [|done].
  assert (pdesc (ts_pend u) /\ held (ts_pend u) t pk wv) as [Hd' Hh'].
  { apply (pend_step E X (fun p => pdesc p /\ held p t pk wv) (older t) _ _ _ Hst Ho Hs); [by split|..].
    - intros p pk' ty wv' t' [H1 H2]. split; [by apply pdesc_ins|by apply held_stays].
    - intros ord si c p [Hp _] [H1 H2]. split; [by apply pdesc_info|by apply held_info].
    - intros ord si p [_ Hlt] Hsp [H1 H2]. specialize (Hlt eq_refl). split; [intros k b q Hk; apply (finalize_rest p _ Hsp) in Hk; by apply H1|].
      destruct H2 as (b & x & w & Hb & Hx & Hw). exists b, x, w. split; [|done]. destruct (finalize_frame p p (si_slot si) t Hsp Hsp H1 H1 ltac:(done) Hlt) as (_ & -> & _). destruct (N.leb_spec t (si_slot si)); [lia|done]. }
  apply IH; [done| |done|done]. assert (ts_run E X ts [o] = Done u) as H1 by (cbn [ts_run]; by rewrite Hst). exact (run_sorted _ _ _ _ _ H1 Hs).
Qed.
(** Whatever is called in between, loads included, as long as only older slots are finalized and parents come before their slots: if the mint still has its number, the update changes nothing. *)
Theorem C112_update_again_later : forall E X l0 ts a c ts1 r l ts2 c',
  ts_run E X ts_empty l0 = Done ts -> parents_first l0 -> c <> Finalized -> d_owner a = spl_token_id \/ d_owner a = spl_2022_id -> ts_update E ts a c = Done (ts1, r) ->
  Forall (fun o => match o with TSlot _ si k => si_parent si < si_slot si /\ (k = Finalized -> si_slot si < d_slot a) | _ => True end) l -> ts_run E X ts1 l = Done ts2 -> c' <> Finalized -> mint_numbered E ts2 a ->
  ts_update E ts2 a c' = Done (ts2, false).
Proof.
  intros E X l0 ts a c ts1 r l ts2 c' H0 Hpf Hc Ho Hu Hl Hr Hc' Hm. assert (sm_sorted (ts_pend ts)) as Hs by (apply (run_sorted _ _ _ _ _ H0); constructor).
  assert (pdesc (ts_pend ts)) as Hd by (apply (run_desc _ _ _ _ _ H0 Hpf); [constructor|done]). destruct (account_reading E a) as [k Hk].
  rewrite update_put by done. unfold read_as. rewrite owner_is_token by done. cbn [mbind res_bind]. rewrite Hk. unfold ts_update in Hu. rewrite owner_is_token in Hu by done. cbn [mbind res_bind] in Hu. rewrite Hk in Hu.
  destruct k as [o|]; cbn [mbind res_bind] in Hu |- *; [|done]. destruct (as_read o a (ts_mint_ix ts) (ts_ctr ts)) as [[[ty ix] ctr]|] eqn:Hread.
  - change (ts_pend (set_ix ts ix ctr)) with (ts_pend ts) in Hu. pose proof (insert_held (ts_pend ts) (d_pubkey a) ty (d_wv a) (d_slot a)) as Hin. pose proof (pd_insert_sorted (ts_pend ts) (d_pubkey a) ty (d_wv a) (d_slot a) Hs) as Hs1.
    assert (pdesc (pd_insert (ts_pend ts) (d_pubkey a) ty (d_wv a) (d_slot a)).1) as Hd1 by (by apply pdesc_ins). destruct (pd_insert _ _ _ _ _) as [p b]. cbn [fst] in *.
    assert (ts1 = set_pend (set_ix ts ix ctr) p) as ->. { destruct c; [| |done]; by injection Hu as <- _. }
    pose proof (run_held E X (d_slot a) (d_pubkey a) (d_wv a) l (set_pend (set_ix ts ix ctr) p) ts2 Hl Hs1 Hd1 Hin Hr) as Hh.
    destruct (as_read o a (ts_mint_ix ts2) (ts_ctr ts2)) as [[[ty' ix'] ctr']|]; cbn [put]; [|done]. rewrite (held_insert _ _ _ _ _ Hh). cbn [fst snd]. by destruct ts2.
  - assert (as_read o a (ts_mint_ix ts2) (ts_ctr ts2) = None) as ->; [|done]. destruct o as [[t|[[q s] x]]|]; cbn [as_read] in Hread |- *; [done| |done]. by destruct (mint_index _ _ _) as [[? ?] ?].
Qed.
Print Assumptions C112_update_again_later.

(** ** Slot notifications *)
(** Heard at confirmed again, a slot is reported again and nothing changes. *)
Theorem C112_confirmed_again : forall ord ord' ts si ts1 rep, ts_slot ord ts si Confirmed = Done (ts1, rep) -> ts_slot ord' ts1 si Confirmed = Done (ts1, rep).
Proof.
  intros ord ord' ts si ts1 rep. cbn [ts_slot]. set (u := if ts_conf ts <? si_slot si then _ else _).
  assert (ts_conf u <? si_slot si = false) as Hu. { unfold u. destruct (ts_conf ts <? si_slot si) eqn:H; [cbn; apply N.ltb_irrefl|done]. }
  unfold pd_for_slot at 1. destruct (sm_get (si_slot si) (ts_pend u)) as [b|] eqn:Hb.
  - destruct (to_accts _ _) as [l|] eqn:Hl; cbn [mbind res_bind]; [|done]. intros [= <- <-]. assert (set_pend u (ts_pend u) = u) as -> by (by destruct u). rewrite Hu. unfold pd_for_slot. rewrite Hb, Hl. cbn [mbind res_bind]. by destruct u.
  - cbn [mbind res_bind]. intros [= <- <-]. change (ts_conf (set_pend u (pd_slot_info (ts_pend u) si))) with (ts_conf u). rewrite Hu. unfold pd_for_slot. cbn [ts_pend ts_mints set_pend]. rewrite info_get, decide_True, Hb by done.
    cbn [ps_accounts]. rewrite map_to_list_empty. done.
Qed.
Print Assumptions C112_confirmed_again.
Lemma finalize_clears p s : sm_sorted p -> sm_sorted (pd_finalize p s).1 /\ forall k, k <= s -> sm_get k (pd_finalize p s).1 = None.
Proof.
  intros Hs. unfold pd_finalize. pose proof (fin_walk_spec (S (length p)) p (Some s) ∅ Hs ltac:(lia)) as (Hs' & _). destruct (fin_walk _ _ _ _) as [q m]. cbn [fst] in *. split; [by apply pop_upto_sorted|].
  intros k Hk. rewrite pop_upto_get by done. by rewrite (proj2 (N.leb_le _ _) Hk).
Qed.
Lemma finalize_again p s : sm_sorted p -> (forall k, k <= s -> sm_get k p = None) -> pd_finalize p s = (p, ∅).
Proof.
  intros Hs Hn. unfold pd_finalize. cbn [fin_walk]. rewrite (Hn s) by lia. f_equal. apply sm_ext; [by apply pop_upto_sorted|done|]. intros k. rewrite pop_upto_get by done. destruct (N.leb_spec k s); [|done]. symmetry. by apply Hn.
Qed.
(** Heard at finalized again, a slot changes nothing and nothing is reported. *)
Theorem C112_finalized_again : forall E X l ts ord ord' si ts1 rep, ts_run E X ts_empty l = Done ts -> (forall m, ord' m ≡ₚ map_to_list m) ->
  ts_slot ord ts si Finalized = Done (ts1, rep) -> ts_slot ord' ts1 si Finalized = Done (ts1, []).
Proof.
  intros E X l ts ord ord' si ts1 rep Hl Hord. assert (sm_sorted (ts_pend ts)) as Hs by (apply (run_sorted _ _ _ _ _ Hl); constructor). cbn [ts_slot]. set (u := if ts_fin ts <? si_slot si then _ else _).
  assert (ts_fin u <? si_slot si = false) as Hu. { unfold u. destruct (ts_fin ts <? si_slot si) eqn:H; [cbn; apply N.ltb_irrefl|done]. }
  assert (sm_sorted (ts_pend u)) as Hsu. { unfold u. destruct (_ <? _); [by apply pd_slot_info_sorted|done]. }
  destruct (finalize_clears (ts_pend u) (si_slot si) Hsu) as [Hc1 Hc2]. destruct (pd_finalize (ts_pend u) (si_slot si)) as [p m]. cbn [fst] in Hc1, Hc2. destruct (to_accts _ _) as [x|]; cbn [mbind res_bind]; [|done].
  destruct (add_all _ _) as [t|] eqn:Ha; cbn [mbind res_bind]; [|done]. intros [= -> _]. pose proof (add_all_pend _ _ _ Ha) as Hp. pose proof (add_all_fin _ _ _ Ha) as Hf. cbn [ts_pend ts_fin set_pend] in Hp, Hf. rewrite Hf, Hu, Hp, finalize_again by done.
  assert (ord' ∅ = []) as ->. { apply Permutation_nil. symmetry. rewrite <- (map_to_list_empty (K := pubkey) (A := pacct * N)). apply Hord. }
  cbn [fmap list_fmap to_accts add_all mbind res_bind]. rewrite <- Hp. by destruct ts1.
Qed.
Print Assumptions C112_finalized_again.
(** Heard at processed again: nothing changes if something of the slot was known before. *)
Theorem C112_processed_again : forall E X l ts ord ord' si ts1 rep, ts_run E X ts_empty l = Done ts -> present (ts_pend ts) (si_slot si) ->
  ts_slot ord ts si Processed = Done (ts1, rep) -> ts_slot ord' ts1 si Processed = Done (ts1, []) /\ rep = [].
Proof.
  intros E X l ts ord ord' si ts1 rep Hl Hp. assert (sm_sorted (ts_pend ts)) as Hs by (apply (run_sorted _ _ _ _ _ Hl); constructor). apply present_get in Hp as [b Hb]; [|done]. cbn [ts_slot]. intros [= <- <-]. split; [|done].
  cbn [ts_pend set_pend]. assert (pd_slot_info (pd_slot_info (ts_pend ts) si) si = pd_slot_info (ts_pend ts) si) as ->; [|done].
  unfold pd_slot_info at 1. rewrite info_get, decide_True, Hb by done. cbn [ps_accounts]. apply sm_put_same; [by apply pd_slot_info_sorted|]. rewrite info_get, decide_True, Hb by done. done.
Qed.
Print Assumptions C112_processed_again.

(** ** Finalized updates *)
Lemma find_again l pk ixs i v : find_pk l pk ixs = Done (Some i) -> peek_pubkey v = Done pk -> find_pk (<[i := v]> l) pk ixs = Done (Some i).
Proof.
  intros H Hv. assert (exists w, l !! i = Some w /\ peek_pubkey w = Done pk) as (w & Hw & Hpw).
  { revert H. induction ixs as [|j ixs IH]; cbn [find_pk]; [done|]. destruct (l !! j) as [w|] eqn:Hj; cbn [unwrap mbind res_bind]; [|done]. destruct (peek_pubkey w) as [q|] eqn:Hq; cbn [mbind res_bind]; [|done].
    destruct (N.eqb_spec q pk) as [->|]; [|by apply IH]. intros [= <-]. eauto. }
  revert H. induction ixs as [|j ixs IH]; cbn [find_pk]; [done|]. destruct (decide (j = i)) as [->|Hne].
  - intros _. rewrite list_lookup_insert by (by eapply lookup_lt_Some). cbn [unwrap mbind res_bind]. rewrite Hv. cbn [mbind res_bind]. by rewrite N.eqb_refl.
  - rewrite list_lookup_insert_ne by done. destruct (l !! j) as [w'|]; cbn [unwrap mbind res_bind]; [|done]. destruct (peek_pubkey w') as [q|]; cbn [mbind res_bind]; [|done]. destruct (q =? pk); [done|]. exact IH.
Qed.
Lemma find_new l pk ixs v : find_pk l pk ixs = Done None -> peek_pubkey v = Done pk -> find_pk (l ++ [v]) pk (ixs ++ [length l]) = Done (Some (length l)).
Proof.
  intros H Hv. revert H. induction ixs as [|j ixs IH]; cbn [find_pk app].
  - intros _. rewrite list_lookup_middle by done. cbn [unwrap mbind res_bind]. rewrite Hv. cbn [mbind res_bind]. by rewrite N.eqb_refl.
  - destruct (l !! j) as [w|] eqn:Hj; cbn [unwrap mbind res_bind]; [|done]. rewrite (lookup_app_l_Some _ _ _ _ Hj). cbn [unwrap mbind res_bind]. destruct (peek_pubkey w) as [q|]; cbn [mbind res_bind]; [|done]. destruct (q =? pk); [done|]. exact IH.
Qed.
Lemma save_again tb t tb1 i b : good t -> tb_save tb t = Done (tb1, i, b) -> tb_save tb1 t = Done (tb1, i, false).
Proof.
  intros Hg. pose proof (good_peek t Hg) as Hv. unfold tb_save at 1. destruct (tb_index tb !! _) as [ixs|] eqn:Hix.
  - destruct (find_pk _ _ _) as [[j|]|] eqn:Hf; cbn [mbind res_bind]; [| |done]; intros [= <- <- <-]; unfold tb_save; cbn [tb_index tb_accounts].
    + rewrite Hix, (find_again _ _ _ _ _ Hf Hv). cbn [mbind res_bind]. by rewrite list_insert_insert.
    + rewrite lookup_insert, (find_new _ _ _ _ Hf Hv). cbn [mbind res_bind]. rewrite list_insert_id; [done|]. by rewrite list_lookup_middle.
  - intros [= <- <- <-]. unfold tb_save. cbn [tb_index tb_accounts]. rewrite lookup_insert. pose proof (find_new (tb_accounts tb) (ta_pubkey t) [] (to_bytes t) eq_refl Hv) as Hf. cbn [app] in Hf. rewrite Hf. cbn [mbind res_bind]. rewrite list_insert_id; [done|]. by rewrite list_lookup_middle.
Qed.
Lemma add_again ts a ts1 : (forall t, a = TPToken t -> good t) -> (forall pk, a = TPDeleted pk -> ts_mint_ix ts !! pk = None) -> add_finalized ts a = Done ts1 -> add_finalized ts1 a = Done ts1.
Proof.
  intros Hg Hd. destruct a as [t|m|m pk|pk]; cbn [add_finalized].
  - unfold add_token. destruct (tb_save _ t) as [[[tb i] b]|] eqn:Hs; cbn [mbind res_bind]; [|done]. intros [= <-]. apply save_again in Hs; [|by apply Hg]. destruct b; cbn [ts_table set_table]; rewrite Hs; done.
  - destruct (ts_mint_ix ts !! ma_pubkey m) as [i|] eqn:Hi; intros [= <-]; cbn [ts_mint_ix set_mints set_ix ts_mints].
    + rewrite Hi. cbn. by rewrite insert_insert.
    + rewrite lookup_insert. cbn. by rewrite insert_insert.
  - intros [= <-]. cbn. by rewrite insert_insert.
  - rewrite (Hd pk eq_refl). unfold tb_delete. destruct (tb_index (ts_table ts) !! prefix4 pk) as [ixs|] eqn:Hix.
    + destruct (find_pk _ _ _) as [[j|]|]; cbn [mbind res_bind]; [| |done]; intros [= <-]; cbn [ts_mint_ix ts_table set_table tb_index]; rewrite (Hd pk eq_refl), lookup_delete; done.
    + cbn [mbind res_bind]. intros [= <-]. cbn [ts_mint_ix ts_table set_table]. rewrite (Hd pk eq_refl), Hix. done.
Qed.

(** A finalized update heard again changes nothing, unless it closed a mint. *)
Theorem C112_finalized_update_again : forall E X l ts a ts1 r, ts_run E X ts_empty l = Done ts -> ops_ok l -> d_pubkey a < 2 ^ 256 -> ts_ctr ts1 <= 2 ^ 32 ->
  ts_mint_ix ts !! d_pubkey a = None \/ d_lamports a <> 0 /\ (d_owner a = spl_token_id \/ d_owner a = spl_2022_id) ->
  ts_update E ts a Finalized = Done (ts1, r) -> exists r', ts_update E ts1 a Finalized = Done (ts1, r').
Proof.
  intros E X l ts a ts1 r Hl Hok Hpk Hc Hcl Hu. assert (ts_ctr ts <= ts_ctr ts1) as Hle.
  { apply (run_ctr E X [TUpdate a Finalized] ts ts1); [cbn [ts_run ts_step]; by rewrite Hu|]. apply Forall_cons_2; [done|by apply Forall_nil_2]. }
  assert (tinv ts) as Hi by (eapply run_inv; [exact Hl|done|apply tinv_empty|lia]). destruct (account_reading E a) as [k Hk]. unfold ts_update in Hu |- *.
  destruct (is_token ts a) as [[]|] eqn:Htok; cbn [mbind res_bind] in Hu; [| |done]; [|injection Hu as <- <-; rewrite Htok; cbn [mbind res_bind]; by exists false].
  destruct (account_type E a (ts_mint_ix ts) (ts_ctr ts)) as [[[[ty ix] ctr]|]|] eqn:Hty; cbn [mbind res_bind] in Hu; [| |done].
  2:{ injection Hu as <- <-. rewrite Htok. cbn [mbind res_bind]. rewrite Hty. cbn [mbind res_bind]. by exists false. }
  destruct (add_finalized (set_ix ts ix ctr) ty) as [t|] eqn:Ha; cbn [mbind res_bind] in Hu; [|done]. injection Hu as <- <-.
  destruct (accepted_ok _ _ _ _ _ _ _ Hty Hpk (ti_ix _ Hi)) as (_ & _ & Hty_ok & _ & _ & _ & _). pose proof (add_finalized_ctr _ _ _ Ha) as Hc2. cbn [ts_ctr set_ix] in Hc2.
  assert (add_finalized t ty = Done t) as Hagain.
  { apply (add_again (set_ix ts ix ctr)); [| |done].
    - intros u ->. apply (tpa_ok_good ctr); [done|lia].
    - intros pk ->. cbn [ts_mint_ix set_ix]. apply account_type_inv in Hty as Hinv. destruct Hinv as [([= ->] & -> & ->)|(_ & p & v & _ & _ & [(m & x & _ & ? & _)|[(m & _ & ? & _)|(s & i & _ & _ & ?)]])]; [|done..].
      destruct Hcl as [|[Hlam Hown]]; [done|]. exfalso. revert Hty. unfold account_type. destruct (N.eqb_spec (d_lamports a) 0); [done|]. cbn [orb].
      assert (negb (d_owner a =? spl_token_id) && negb (d_owner a =? spl_2022_id) = false) as -> by (destruct Hown as [->| ->]; done).
      destruct (d_owner a =? spl_2022_id); destruct (data_bytes E (d_data a)) as [v|]; cbn [mbind res_bind]; try done; intros [= H]; repeat case_match; simplify_eq; destruct (v !! 165%nat) as [z|]; cbn [unwrap mbind res_bind] in *; repeat case_match; simplify_eq. }
  assert (account_type E a (ts_mint_ix t) (ts_ctr t) = Done (Some (ty, ts_mint_ix t, ts_ctr t))) as Hread.
  { rewrite Hk in Hty |- *. destruct k as [o|]; cbn [mbind res_bind] in Hty |- *; [|done]. injection Hty as Hty. destruct o as [[u|[[q s] x]]|]; cbn [as_read] in Hty |- *; [by injection Hty as <- _ _| |done].
    destruct (mint_index (sa_mint s) (ts_mint_ix ts) (ts_ctr ts)) as [[i ix0] ctr0] eqn:Hm. injection Hty as <- -> ->. apply mint_index_again in Hm. cbn [add_finalized] in Ha. unfold add_token in Ha.
    destruct (tb_save _ _) as [[[tb j] b]|]; cbn [mbind res_bind] in Ha; [|done]. injection Ha as <-. destruct b; cbn [ts_mint_ix ts_ctr set_table set_ix]; by rewrite Hm. }
  destruct (is_token t a) as [kt|] eqn:Hkt; cbn [mbind res_bind].
  - destruct kt; [|by exists false]. rewrite Hread. cbn [mbind res_bind]. assert (set_ix t (ts_mint_ix t) (ts_ctr t) = t) as -> by (by destruct t). rewrite Hagain. cbn [mbind res_bind]. by exists true.
  - exfalso. assert (tb_ok (ts_table t)) as Htb.
    { assert (ts_step E X ts (TUpdate a Finalized) = Done t) as Hst. { cbn [ts_step]. unfold ts_update. rewrite Htok. cbn [mbind res_bind]. rewrite Hk in Hread |- *. destruct k as [o|]; [|done]. rewrite Hk in Hty. cbn [mbind res_bind] in Hty |- *. injection Hty as ->. rewrite Ha. done. }
      apply ti_table. eapply step_inv; [exact Hst|done..|]. done. }
    unfold is_token in Hkt. destruct (_ || _); [done|]. unfold tb_contains in Hkt. destruct (tb_index _ !! _) as [ixs|] eqn:Hix; [|done]. destruct (to_bucket _ Htb _ _ Hix) as [Hne Hall].
    destruct (1 <? length ixs)%nat; [|by destruct ixs]. destruct (find_pk_spec (ts_table t) (d_pubkey a) ixs) as (o & Hf & _); [|by rewrite Hf in Hkt]. intros i Hin. destruct (Hall i Hin) as (u & Hst & _). eauto.
Qed.
Print Assumptions C112_finalized_update_again.

(** ** Examples and limits *)
Definition h112 : list tsop := [TInit (mintd 1001 50 1 1); TInit (mintd 1003 60 1 1)].
Definition a112 : acct := tokd 77 1001 1002 6 10 2.
Definition m112 : list tsop := [TUpdate (tokd 77 1001 1002 7 10 3) Processed; TUpdate (tokd 78 1003 1002 8 10 4) Confirmed; TSlot ord0 (SlotInfo 10 9 0) Processed; TSlot ord0 (SlotInfo 10 9 0) Confirmed].
Definition changed (r : res (tstore * bool)) : option bool := match r with Done (_, b) => Some b | Panic => None end.
Definition reported (r : res (tstore * list acct)) : option nat := match r with Done (_, l) => Some (length l) | Panic => None end.
Example C112_update_example : d_owner a112 = spl_token_id /\ ran (h112 ++ [TUpdate a112 Processed]) = true /\ changed (ts_update E0 (final h112) a112 Processed) = Some true /\
  Forall (fun o => match o with TUpdate _ c | TSlot _ _ c => c <> Finalized | _ => False end) m112 /\ ran (h112 ++ [TUpdate a112 Processed] ++ m112) = true /\
  changed (ts_update E0 (final (h112 ++ [TUpdate a112 Processed] ++ m112)) a112 Confirmed) = Some false.
Proof. split; [done|]. split; [by vm_compute|]. split; [by vm_compute|]. split; [unfold m112; repeat (apply Forall_cons_2; [done|]); by apply Forall_nil_2|]. split; by vm_compute. Qed.
Definition n112 : list tsop := [TUpdate (tokd 78 1003 1002 8 9 4) Processed; TSlot ord0 (SlotInfo 9 8 0) Processed; TUpdate (mintd 1001 51 9 5) Finalized; TSlot ord0 (SlotInfo 9 8 0) Finalized; TSlot ord0 (SlotInfo 10 9 0) Confirmed].
Example C112_later_example : parents_first h112 /\ Forall (fun o => match o with TSlot _ si k => si_parent si < si_slot si /\ (k = Finalized -> si_slot si < d_slot a112) | _ => True end) n112 /\
  ran (h112 ++ [TUpdate a112 Processed] ++ n112) = true /\ ts_mint_ix (final (h112 ++ [TUpdate a112 Processed] ++ n112)) !! 1001 = Some 0 /\ changed (ts_update E0 (final (h112 ++ [TUpdate a112 Processed] ++ n112)) a112 Confirmed) = Some false.
Proof.
  split; [intros ord si c H; unfold h112 in H; rewrite !elem_of_cons, elem_of_nil in H; by destruct_or?|]. split; [unfold n112; repeat (apply Forall_cons_2; [try done|]); by apply Forall_nil_2|]. split; [by vm_compute|]. split; by vm_compute.
Qed.
Definition t112 : tstore := final (h112 ++ [TUpdate a112 Processed] ++ m112).
Example C112_slot_example : ran (h112 ++ [TUpdate a112 Processed] ++ m112) = true /\ present (ts_pend (final (h112 ++ [TUpdate a112 Processed]))) 10 /\
  reported (ts_slot ord0 t112 (SlotInfo 10 9 0) Confirmed) = Some 2%nat /\ reported (ts_slot ord0 t112 (SlotInfo 10 9 0) Finalized) = Some 2%nat.
Proof. split; [by vm_compute|]. split; [eexists; vm_compute; by left|]. split; by vm_compute. Qed.
Example C112_finalized_update_example : ran h112 = true /\ ops_ok h112 /\ d_pubkey a112 < 2 ^ 256 /\ ts_ctr (final (h112 ++ [TUpdate a112 Finalized])) <= 2 ^ 32 /\ ts_mint_ix (final h112) !! d_pubkey a112 = None /\
  changed (ts_update E0 (final h112) a112 Finalized) = Some true.
Proof. split; [by vm_compute|]. split; [repeat (apply Forall_cons_2; [done|]); by apply Forall_nil_2|]. split; [done|]. split; [by vm_compute|]. split; by vm_compute. Qed.
(** A slot heard of first by its processed notification gets its parent only with the second one: accounts of the parent are found at confirmed only if the notification is heard twice. *)
Theorem C112_processed_refuted : exists l o rest pk x, ran (l ++ [o] ++ rest) = true /\ ran (l ++ [o; o] ++ rest) = true /\
  ts_get (final (l ++ [o] ++ rest)) pk Confirmed = Done (ROk None) /\ ts_get (final (l ++ [o; o] ++ rest)) pk Confirmed = Done (ROk (Some x)).
Proof.
  exists (h112 ++ [TUpdate (tokd 77 1001 1002 5 9 1) Processed]), (TSlot ord0 (SlotInfo 10 9 0) Processed), [TSlot ord0 (SlotInfo 11 10 0) Processed; TSlot ord0 (SlotInfo 11 10 0) Confirmed], 77, (tokd 77 1001 1002 5 9 0).
  split; [by vm_compute|]. split; [by vm_compute|]. split; by vm_compute.
Qed.
Print Assumptions C112_processed_refuted.
(** An update heard again after its slot was finalized: if a later update of the account in the same slot was finalized, the account goes back, also at finalized. *)
Theorem C112_late_refuted : exists l a mid rest x y, a ∈ l /\ ran (l ++ mid ++ rest) = true /\ ran (l ++ mid ++ [a] ++ rest) = true /\
  ts_get (final (l ++ mid)) 77 Finalized = Done (ROk (Some x)) /\ ts_get (final (l ++ mid ++ rest)) 77 Finalized = Done (ROk (Some y)) /\ d_data x = d_data y /\
  ts_get (final (l ++ mid ++ [a] ++ rest)) 77 Finalized <> Done (ROk (Some y)).
Proof.
  exists (h112 ++ [TUpdate a112 Processed; TUpdate (tokd 77 1001 1002 7 10 3) Processed; TSlot ord0 (SlotInfo 10 9 0) Processed]), (TUpdate a112 Processed),
    [TSlot ord0 (SlotInfo 10 9 0) Finalized; TUpdate (tokd 78 1003 1002 8 11 4) Processed; TSlot ord0 (SlotInfo 11 10 0) Processed], [TSlot ord0 (SlotInfo 11 10 0) Finalized]. eexists _, _.
  split; [unfold h112; cbn [app]; right; right; left|]. split; [by vm_compute|]. split; [by vm_compute|]. split; [by vm_compute|]. split; [by vm_compute|]. split; [by vm_compute|]. by vm_compute.
Qed.
Print Assumptions C112_late_refuted.
(** The close of a mint heard twice at finalized: the second time it is taken for the close of a token account, and an account whose key shares the first four bytes is lost. *)
Theorem C112_close_refuted : exists l a pk x, ops_ok l /\ ran (l ++ [TUpdate a Finalized]) = true /\ ran (l ++ [TUpdate a Finalized; TUpdate a Finalized]) = true /\ d_pubkey a <> pk /\
  ts_get (final (l ++ [TUpdate a Finalized])) pk Finalized = Done (ROk (Some x)) /\ ts_get (final (l ++ [TUpdate a Finalized; TUpdate a Finalized])) pk Finalized = Done (ROk None).
Proof.
  exists (h112 ++ [TUpdate (tokd (1001 + 2 ^ 32) 1003 1002 6 10 2) Finalized]), (closed 1001 11 3), (1001 + 2 ^ 32). eexists.
  split; [unfold h112; cbn [app]; repeat (apply Forall_cons_2; [done|]); by apply Forall_nil_2|]. split; [by vm_compute|]. split; [by vm_compute|]. split; [done|]. split; by vm_compute.
Qed.
Print Assumptions C112_close_refuted.
