(** C110: the order in which account updates and slot notifications reach the token store
    (update_account and process_slot_data, inmemory_token_storage.rs 558-589 and 695-738). *)
From Verif Require Import Base SMap DataModel BincodeModel BincodeProofs FilterModel FilterProofs StoreModel TokenModel TokenProofs TokenProps SplModel SplProofs TokenUtilsModel
  TokenUtilsProofs TokenPendModel TokenPendSpec TokenPendProofs TokenPendProps TokenUtilsProps TokenStoreModel TokenStoreSpec TokenStoreProofs TokenStoreViews TokenStoreProps TokenStoreOrder
  TokenStoreQuery TokenStoreQueryProps TokenStoreSafe TokenAnswerProps.

(** ** The pending part, slot by slot *)
Definition pdesc (p : pend) : Prop := forall s b q, sm_get s p = Some b -> ps_parent b = Some q -> q < s.
Definition ins_slot (o : option pslot) (pk : pubkey) (a : tpa) (wv : N) : pslot * bool :=
  match o with
  | Some b => match ps_accounts b !! pk with
              | Some (_, w) => if w <? wv then (PSlot (<[pk := (a, wv)]> (ps_accounts b)) (ps_parent b), true) else (b, false)
              | None => (PSlot (<[pk := (a, wv)]> (ps_accounts b)) (ps_parent b), true)
              end
  | None => (PSlot {[pk := (a, wv)]} None, true)
  end.
Lemma ins_spec p pk a wv t : (pd_insert p pk a wv t).2 = (ins_slot (sm_get t p) pk a wv).2 /\
  forall k, sm_get k (pd_insert p pk a wv t).1 = if decide (k = t) then Some (ins_slot (sm_get t p) pk a wv).1 else sm_get k p.
Proof.
  assert (forall x k, sm_get k (sm_put t x p) = if decide (k = t) then Some x else sm_get k p) as Hput.
  { intros x k. destruct (decide (k = t)) as [->|]; [by rewrite sm_get_put|by rewrite sm_get_put_ne]. }
  unfold pd_insert, ins_slot. destruct (sm_get t p) as [b|] eqn:Hb; [|split; [done|apply Hput]]. destruct (ps_accounts b !! pk) as [[x w]|]; [|split; [done|apply Hput]].
  destruct (w <? wv); split; try done; [apply Hput|]. intros k. by destruct (decide (k = t)) as [->|].
Qed.
Lemma info_get p si k : sm_get k (pd_slot_info p si) = if decide (k = si_slot si) then Some (match sm_get (si_slot si) p with Some b => PSlot (ps_accounts b) (Some (si_parent si)) | None => PSlot ∅ None end) else sm_get k p.
Proof. unfold pd_slot_info. destruct (sm_get (si_slot si) p); (destruct (decide (k = si_slot si)) as [->|]; [by rewrite sm_get_put|by rewrite sm_get_put_ne]). Qed.
Lemma ins_parent o pk a wv : ps_parent (ins_slot o pk a wv).1 = match o with Some b => ps_parent b | None => None end.
Proof. unfold ins_slot. by repeat case_match. Qed.
Lemma pdesc_ins p pk a wv t : pdesc p -> pdesc (pd_insert p pk a wv t).1.
Proof.
  intros Hd s b q. rewrite (proj2 (ins_spec p pk a wv t)). destruct (decide (s = t)) as [->|]; [|apply Hd]. intros [= <-]. rewrite ins_parent. destruct (sm_get t p) eqn:Hb; [by apply Hd|done].
Qed.
Lemma pdesc_info p si : si_parent si < si_slot si -> pdesc p -> pdesc (pd_slot_info p si).
Proof.
  intros Hlt Hd s b q. rewrite info_get. destruct (decide (s = si_slot si)) as [->|]; [|apply Hd]. intros [= <-]. destruct (sm_get (si_slot si) p); simpl; [by intros [= <-]|done].
Qed.
(** Two versions of the same account, slot and write version are the same. *)
Lemma ins_ins o pk a wv pk' a' wv' : (pk = pk' -> wv = wv' -> a = a') ->
  (ins_slot (Some (ins_slot o pk a wv).1) pk' a' wv').1 = (ins_slot (Some (ins_slot o pk' a' wv').1) pk a wv).1.
Proof.
  intros Hsame. destruct (decide (pk = pk')) as [<-|Hne].
  - specialize (Hsame eq_refl). assert (forall b, ps_accounts b !! pk = None \/ exists x w, ps_accounts b !! pk = Some (x, w)) as Hca by (intros b; destruct (ps_accounts b !! pk) as [[x w]|]; eauto).
    assert (wv = wv' \/ wv < wv' \/ wv' < wv) as [<-|[Hlt|Hlt]] by lia.
    + by rewrite (Hsame eq_refl).
    + unfold ins_slot. destruct o as [b|].
      * destruct (Hca b) as [Hb|(x & w & Hb)]; rewrite !Hb; cbn [fst ps_accounts ps_parent]; rewrite ?lookup_insert.
        -- rewrite (proj2 (N.ltb_lt wv wv') Hlt), (proj2 (N.ltb_ge wv' wv)) by lia. cbn [fst]. by rewrite insert_insert.
        -- destruct (N.ltb_spec w wv); destruct (N.ltb_spec w wv'); try lia; cbn [fst ps_accounts ps_parent]; rewrite ?lookup_insert, ?Hb;
             rewrite ?(proj2 (N.ltb_lt wv wv') Hlt), ?(proj2 (N.ltb_ge wv' wv)), ?insert_insert by lia; cbn [fst]; try done.
           all: try (rewrite (proj2 (N.ltb_lt w wv')) by lia; cbn [fst]; done). all: rewrite ?(proj2 (N.ltb_ge w wv')), ?(proj2 (N.ltb_ge w wv)) by lia; done.
      * cbn [fst ps_accounts ps_parent]. rewrite !lookup_singleton, (proj2 (N.ltb_lt wv wv') Hlt), (proj2 (N.ltb_ge wv' wv)) by lia. cbn [fst]. by rewrite insert_singleton.
    + unfold ins_slot. destruct o as [b|].
      * destruct (Hca b) as [Hb|(x & w & Hb)]; rewrite !Hb; cbn [fst ps_accounts ps_parent]; rewrite ?lookup_insert.
        -- rewrite (proj2 (N.ltb_lt wv' wv) Hlt), (proj2 (N.ltb_ge wv wv')) by lia. cbn [fst]. by rewrite insert_insert.
        -- destruct (N.ltb_spec w wv); destruct (N.ltb_spec w wv'); try lia; cbn [fst ps_accounts ps_parent]; rewrite ?lookup_insert, ?Hb;
             rewrite ?(proj2 (N.ltb_lt wv' wv) Hlt), ?(proj2 (N.ltb_ge wv wv')), ?insert_insert by lia; cbn [fst]; try done.
           all: try (rewrite (proj2 (N.ltb_lt w wv)) by lia; cbn [fst]; done). all: rewrite ?(proj2 (N.ltb_ge w wv')), ?(proj2 (N.ltb_ge w wv)) by lia; done.
      * cbn [fst ps_accounts ps_parent]. rewrite !lookup_singleton, (proj2 (N.ltb_lt wv' wv) Hlt), (proj2 (N.ltb_ge wv wv')) by lia. cbn [fst]. by rewrite insert_singleton.
  - unfold ins_slot. destruct o as [b|].
    + destruct (ps_accounts b !! pk) as [[x w]|] eqn:H1; destruct (ps_accounts b !! pk') as [[x' w']|] eqn:H2; try destruct (w <? wv) eqn:H3; try destruct (w' <? wv') eqn:H4;
        cbn [fst ps_accounts ps_parent]; rewrite ?lookup_insert_ne, ?H1, ?H2, ?H3, ?H4 by done; cbn [fst]; try done; by rewrite insert_commute.
    + cbn [fst ps_accounts ps_parent]. rewrite !lookup_singleton_ne by done. cbn [fst]. unfold singletonM, map_singleton. by rewrite insert_commute.
Qed.
Lemma insert_insert_pend p pk a wv t pk' a' wv' t' : sm_sorted p -> (pk = pk' -> t = t' -> wv = wv' -> a = a') ->
  (pd_insert (pd_insert p pk a wv t).1 pk' a' wv' t').1 = (pd_insert (pd_insert p pk' a' wv' t').1 pk a wv t).1.
Proof.
  intros Hs Hsame. apply sm_ext; [by repeat apply pd_insert_sorted|by repeat apply pd_insert_sorted|]. intros k.
  rewrite (proj2 (ins_spec _ pk' a' wv' t')), (proj2 (ins_spec (pd_insert p pk' a' wv' t').1 pk a wv t)). rewrite !(proj2 (ins_spec p pk a wv t)), !(proj2 (ins_spec p pk' a' wv' t')).
  destruct (decide (t = t')) as [<-|Hne].
  - rewrite !(decide_True (P := t = t)) by done. destruct (decide (k = t)); [|done]. f_equal. apply ins_ins. auto.
  - repeat (destruct (decide _)); congruence.
Qed.
Lemma insert_info p pk a wv t si : sm_sorted p -> t <> si_slot si ->
  pd_slot_info (pd_insert p pk a wv t).1 si = (pd_insert (pd_slot_info p si) pk a wv t).1 /\ (pd_insert (pd_slot_info p si) pk a wv t).2 = (pd_insert p pk a wv t).2.
Proof.
  intros Hs Hne. destruct (ins_spec p pk a wv t) as [F1 G1]. destruct (ins_spec (pd_slot_info p si) pk a wv t) as [F2 G2]. split.
  - apply sm_ext; [by apply pd_slot_info_sorted, pd_insert_sorted|by apply pd_insert_sorted, pd_slot_info_sorted|]. intros k. rewrite info_get, G2, !G1, !info_get.
    repeat (destruct (decide _)); congruence.
  - rewrite F2, F1, info_get, decide_False by done. done.
Qed.
(** A slot that is known already may be announced before or after. *)
Lemma insert_info_known p pk a wv si : sm_sorted p -> is_Some (sm_get (si_slot si) p) ->
  pd_slot_info (pd_insert p pk a wv (si_slot si)).1 si = (pd_insert (pd_slot_info p si) pk a wv (si_slot si)).1 /\ (pd_insert (pd_slot_info p si) pk a wv (si_slot si)).2 = (pd_insert p pk a wv (si_slot si)).2.
Proof.
  intros Hs [b Hb]. destruct (ins_spec p pk a wv (si_slot si)) as [F1 G1]. destruct (ins_spec (pd_slot_info p si) pk a wv (si_slot si)) as [F2 G2].
  assert (sm_get (si_slot si) (pd_slot_info p si) = Some (PSlot (ps_accounts b) (Some (si_parent si)))) as Hi by (by rewrite info_get, decide_True, Hb).
  rewrite Hi in F2, G2. rewrite Hb in F1, G1. split.
  - apply sm_ext; [by apply pd_slot_info_sorted, pd_insert_sorted|by apply pd_insert_sorted, pd_slot_info_sorted|]. intros k. rewrite info_get, G2, !G1, info_get. destruct (decide (k = si_slot si)); [|done].
    rewrite decide_True by done. f_equal. unfold ins_slot. cbn [ps_accounts ps_parent]. destruct (ps_accounts b !! pk) as [[x w]|]; [destruct (w <? wv)|]; done.
  - rewrite F1, F2. unfold ins_slot. cbn [ps_accounts ps_parent]. destruct (ps_accounts b !! pk) as [[x w]|]; [destruct (w <? wv)|]; done.
Qed.
(** Finalizing does not look at newer slots. *)
Lemma near_frame p p1 t pk : pdesc p -> (forall k, k <> t -> sm_get k p1 = sm_get k p) -> forall n s x, s < t -> near p pk n s x <-> near p1 pk n s x.
Proof.
  intros Hd Hag n. induction n as [|n IH]; intros s x Hlt; (split; intros H; inversion H; subst).
  - eapply near0; [by rewrite Hag by lia|done].
  - eapply near0; [|done]. by rewrite <- Hag by lia.
  - eapply nearS; [rewrite Hag by lia; done|done|done|]. apply IH; [|done]. assert (s' < s) by (by eapply Hd). lia.
  - assert (sm_get s p = Some b) as Hb by (by rewrite <- Hag by lia). eapply nearS; [done|done|done|]. assert (s' < s) by (by eapply Hd). apply IH; [lia|done].
Qed.
Lemma finalize_frame p p1 s t : sm_sorted p -> sm_sorted p1 -> pdesc p -> pdesc p1 -> (forall k, k <> t -> sm_get k p1 = sm_get k p) -> s < t ->
  (pd_finalize p1 s).2 = (pd_finalize p s).2 /\
  (forall k, sm_get k (pd_finalize p s).1 = if k <=? s then None else sm_get k p) /\ (forall k, sm_get k (pd_finalize p1 s).1 = if k <=? s then None else sm_get k p1) /\
  sm_sorted (pd_finalize p s).1 /\ sm_sorted (pd_finalize p1 s).1.
Proof.
  intros Hs Hs1 Hd Hd1 Hag Hlt.
  assert (forall p, sm_sorted p -> pdesc p -> sm_sorted (pd_finalize p s).1 /\ (forall k, sm_get k (pd_finalize p s).1 = if k <=? s then None else sm_get k p) /\
    forall pk x, (pd_finalize p s).2 !! pk = Some x <-> exists n, near p pk n s x) as Hone.
  { clear. intros p Hs Hd. unfold pd_finalize. pose proof (fin_walk_spec (S (length p)) p (Some s) ∅ Hs ltac:(lia)) as (H1 & H2 & H3 & H4).
    destruct (fin_walk _ _ _ _) as [p' m]. cbn [fst snd] in *. split; [by apply pop_upto_sorted|]. split.
    - intros k. rewrite pop_upto_get by done. destruct (N.leb_spec k s) as [|Hk]; [done|]. destruct (sm_get k p') as [b|] eqn:Hb; [symmetry; by apply H3|].
      symmetry. apply H4 in Hb as [?|(s' & [= <-] & Hc)]; [done|]. exfalso. assert (k <= s); [|lia]. clear -Hs Hd Hc. induction Hc as [|s q t Hp Hc IH]; [lia|].
      apply (parent_get p Hs) in Hp as (b & Hb & Hp). pose proof (Hd _ _ _ Hb Hp). lia.
    - intros pk x. rewrite H2, lookup_empty. split; [intros [?|(_ & s' & n & [= <-] & Hn)]; [done|by exists n]|]. intros [n Hn]. right. split; [done|]. by exists s, n. }
  destruct (Hone p Hs Hd) as (A1 & A2 & A3). destruct (Hone p1 Hs1 Hd1) as (B1 & B2 & B3). split_and!; [|done|done|done|done].
  apply map_eq. intros pk. apply option_eq. intros x. rewrite A3, B3. split; intros [n Hn]; exists n; by apply (near_frame p p1 t pk Hd Hag).
Qed.

(** ** Histories *)
Lemma add_token_pend' ts t ts' : add_token ts t = Done ts' -> ts_pend ts' = ts_pend ts.
Proof. unfold add_token. destruct (tb_save _ _) as [[[tb i] b]|]; [|done]. simpl. by destruct b; intros [= <-]. Qed.
Lemma load_pend ts s ts' : load_content ts s = Done ts' -> ts_pend ts' = ts_pend ts.
Proof.
  unfold load_content. assert (forall l t, ts_pend (foldl (fun ts m => set_multi ts (<[mu_pubkey m := m]> (ts_multi ts))) t l) = ts_pend t) as Hm by (induction l as [|x l IH]; intros t; simpl; [done|by rewrite IH]).
  rewrite <- (Hm (sn_multis s) ts). generalize (foldl (fun ts m => set_multi ts (<[mu_pubkey m := m]> (ts_multi ts))) ts (sn_multis s)). clear. intros t.
  assert (forall l t m, ts_pend (load_mints t m l).1 = ts_pend t) as Hl by (induction l as [|[i x] l IH]; intros t0 m; simpl; [done|destruct (_ !! _); by rewrite IH]).
  specialize (Hl (sn_mints s) t ∅). destruct (load_mints t ∅ (sn_mints s)) as [u map]. simpl in Hl. rewrite <- Hl. clear. revert u. induction (sn_tokens s) as [|v l IH]; intros u; simpl; [by intros [= <-]|].
  destruct (from_bytes v) as [x|]; [|done]. cbn [mbind res_bind]. destruct (map !! ta_mint x); [|done]. cbn [unwrap mbind res_bind]. destruct (add_token u _) as [u1|] eqn:H1; [|done]. cbn [mbind res_bind].
  intros H. rewrite (IH _ H). by eapply add_token_pend'.
Qed.
(** A property of the pending part that holds of the operations' effects on it holds after every history. *)
Lemma pend_ind E X (P : pend -> Prop) (Q : tsop -> Prop) ts o ts' : ts_step E X ts o = Done ts' -> Q o -> sm_sorted (ts_pend ts) -> P (ts_pend ts) ->
  (forall p pk a wv t, P p -> P (pd_insert p pk a wv t).1) -> (forall ord si c p, Q (TSlot ord si c) -> P p -> P (pd_slot_info p si)) -> (forall p s, sm_sorted p -> P p -> P (pd_finalize p s).1) -> P (ts_pend ts').
Proof.
  intros H HQ Hs HP Hi Hn Hf. destruct o as [a c|a|ord si c|p b]; simpl in H.
  - unfold ts_update in H. destruct (is_token ts a) as [k|]; [|done]. cbn [mbind res_bind] in H. destruct k; [|by injection H as <-].
    destruct (account_type _ _ _ _) as [[[[ty ix] ctr]|]|]; cbn [mbind res_bind] in H; [|by injection H as <-|done]. cbn [ts_pend set_ix] in H. specialize (Hi _ (d_pubkey a) ty (d_wv a) (d_slot a) HP).
    destruct c; [destruct (pd_insert _ _ _ _ _); injection H as <-; exact Hi|destruct (pd_insert _ _ _ _ _); injection H as <-; exact Hi|].
    destruct (add_finalized _ _) as [t|] eqn:Ha; [|done]. injection H as <-. by rewrite (add_finalized_pend _ _ _ Ha).
  - unfold ts_init in H. destruct (is_token ts a) as [k|]; [|done]. cbn [mbind res_bind] in H. destruct k; [|by injection H as <-].
    destruct (account_type _ _ _ _) as [[[[ty ix] ctr]|]|]; cbn [mbind res_bind] in H; [|by injection H as <-|done]. by rewrite (add_finalized_pend _ _ _ H).
  - unfold ts_slot in H. specialize (Hn ord si c). destruct c.
    + injection H as <-. cbn [ts_pend set_pend]. by apply Hn.
    + set (u := if ts_conf ts <? si_slot si then _ else _) in H. assert (P (ts_pend u)) as Hu by (unfold u; destruct (_ <? _); [by apply Hn|done]).
      destruct (pd_for_slot _ _ _) as [[p l]|] eqn:Hp; [|done]. injection H as <-. cbn [ts_pend set_pend]. apply pd_for_slot_pend in Hp as ->. destruct (sm_get _ _); [done|by apply Hn].
    + set (u := if ts_fin ts <? si_slot si then _ else _) in H. assert (sm_sorted (ts_pend u) /\ P (ts_pend u)) as [Hsu Hu] by (unfold u; destruct (_ <? _); [split; [by apply pd_slot_info_sorted|by apply Hn]|done]).
      specialize (Hf _ (si_slot si) Hsu Hu). destruct (pd_finalize _ _) as [p m]. cbn [fst] in Hf. destruct (to_accts _ _) as [r|]; [|done]. cbn [mbind res_bind] in H. destruct (add_all _ _) as [t|] eqn:Ha; [|done]. injection H as <-.
      by rewrite (add_all_pend _ _ _ Ha).
  - unfold ts_load in H. destruct (lz4_decompress _ _) as [d|]; [|by injection H as <-]. destruct (d_snap d) as [[s r]|]; [|by injection H as <-].
    destruct (load_content ts s) as [t|] eqn:Hl; [|done]. injection H as <-. by rewrite (load_pend _ _ _ Hl).
Qed.
Lemma finalize_rest p s : sm_sorted p -> sm_sorted (pd_finalize p s).1 /\ forall k b, sm_get k (pd_finalize p s).1 = Some b -> sm_get k p = Some b.
Proof.
  intros Hs. unfold pd_finalize. pose proof (fin_walk_spec (S (length p)) p (Some s) ∅ Hs ltac:(lia)) as (H1 & H2 & H3 & H4). destruct (fin_walk _ _ _ _) as [p' m]. cbn [fst snd] in *.
  split; [by apply pop_upto_sorted|]. intros k b. rewrite pop_upto_get by done. destruct (k <=? s); [done|]. apply H3.
Qed.
Lemma run_sorted E X l : forall ts ts', ts_run E X ts l = Done ts' -> sm_sorted (ts_pend ts) -> sm_sorted (ts_pend ts').
Proof.
  induction l as [|o l IH]; intros ts ts'; cbn [ts_run]; [by intros [= <-]|]. destruct (ts_step E X ts o) as [u|] eqn:Ho; [|done]. cbn [mbind res_bind]. intros H Hs. apply (IH _ _ H).
  apply (pend_ind E X sm_sorted (fun _ => True) _ _ _ Ho); [done|done|done|intros; by apply pd_insert_sorted|intros; by apply pd_slot_info_sorted|]. intros p s Hp _. by apply finalize_rest.
Qed.
Definition parents_first (l : list tsop) : Prop := forall ord si c, TSlot ord si c ∈ l -> si_parent si < si_slot si.
Lemma run_desc E X l : forall ts ts', ts_run E X ts l = Done ts' -> parents_first l -> sm_sorted (ts_pend ts) -> pdesc (ts_pend ts) -> pdesc (ts_pend ts').
Proof.
  induction l as [|o l IH]; intros ts ts'; cbn [ts_run]; [by intros [= <-]|]. destruct (ts_step E X ts o) as [u|] eqn:Ho; [|done]. cbn [mbind res_bind]. intros H Hl Hs Hd.
  apply (IH _ _ H); [intros ord si c Hin; apply (Hl ord si c); by right|..].
  - assert (ts_run E X ts [o] = Done u) as H1 by (cbn [ts_run]; by rewrite Ho). exact (run_sorted _ _ _ _ _ H1 Hs).
  - apply (pend_ind E X pdesc (fun x => x ∈ o :: l) _ _ _ Ho); [left|done|done|intros; by apply pdesc_ins|intros ord si c p Hin Hp; apply pdesc_info; [by apply (Hl ord si c)|done]|].
    intros p s Hp Hd' k b q Hk. apply (finalize_rest p s Hp) in Hk. by apply Hd'.
Qed.

(** ** An update below finalized of an account whose mint has a number *)
Definition read_as (E : ext) (ts : tstore) (a : acct) : res (option tpa) :=
  k ← is_token ts a; if k : bool then o ← account_type E a (ts_mint_ix ts) (ts_ctr ts); Done (match o with Some (ty, _, _) => Some ty | None => None end) else Done None.
Definition put (ts : tstore) (a : acct) (o : option tpa) : tstore * bool :=
  match o with Some ty => (set_pend ts (pd_insert (ts_pend ts) (d_pubkey a) ty (d_wv a) (d_slot a)).1, (pd_insert (ts_pend ts) (d_pubkey a) ty (d_wv a) (d_slot a)).2) | None => (ts, false) end.
Lemma update_put E ts a c : c <> Finalized -> mint_numbered E ts a -> ts_update E ts a c = (o ← read_as E ts a; Done (put ts a o)).
Proof.
  intros Hc Hm. unfold ts_update, read_as. destruct (is_token ts a) as [k|]; [|done]. cbn [mbind res_bind]. destruct k; [|done].
  destruct (account_type E a (ts_mint_ix ts) (ts_ctr ts)) as [[[[ty ix] ctr]|]|] eqn:Ht; cbn [mbind res_bind]; [|done|done]. destruct (account_type_ix E ts a ty ix ctr Hm Ht) as [-> ->].
  assert (set_ix ts (ts_mint_ix ts) (ts_ctr ts) = ts) as -> by (by destruct ts). cbn [put]. destruct (pd_insert _ _ _ _ _) as [p b]. by destruct c.
Qed.
Lemma put_pend ts a o : exists p, (put ts a o).1 = set_pend ts p.
Proof. destruct o as [ty|]; simpl; [eauto|]. exists (ts_pend ts). by destruct ts. Qed.
Lemma put_put ts a o a' o' : sm_sorted (ts_pend ts) -> (d_pubkey a = d_pubkey a' -> d_slot a = d_slot a' -> d_wv a = d_wv a' -> o = o') -> (put (put ts a o).1 a' o').1 = (put (put ts a' o').1 a o).1.
Proof.
  intros Hs Hsame. destruct o as [ty|], o' as [ty'|]; simpl; try done. unfold set_pend. simpl. f_equal. apply insert_insert_pend; [done|]. intros H1 H2 H3. assert (Some ty = Some ty') by auto. congruence.
Qed.

Lemma account_type_same E a ix ctr ix' ctr' : (forall v r, data_bytes E (d_data a) = Done v -> unpack_account v = Some r -> is_Some (ix !! sa_mint r) /\ ix' !! sa_mint r = ix !! sa_mint r) ->
  (o ← account_type E a ix' ctr'; Done (match o with Some (ty, _, _) => Some ty | None => None end)) = (o ← account_type E a ix ctr; Done (match o with Some (ty, _, _) => Some ty | None => None end)).
Proof.
  intros Hm. unfold account_type. destruct (_ || _); [done|]. destruct (data_bytes E (d_data a)) as [v|] eqn:Hv; cbn [mbind res_bind]; [|by destruct (d_owner a =? spl_2022_id)].
  destruct (unpack_account v) as [s|] eqn:Hu.
  - destruct (Hm v s eq_refl Hu) as [[i Hi] Hi']. unfold mint_index. rewrite Hi', Hi. destruct (unpack_mint v), (unpack_multisig v), (v !! 165%nat); cbn [unwrap mbind res_bind]; by repeat case_match.
  - destruct (unpack_mint v), (unpack_multisig v), (v !! 165%nat); cbn [unwrap mbind res_bind]; by repeat case_match.
Qed.
Lemma owner_is_token ts a : d_owner a = spl_token_id \/ d_owner a = spl_2022_id -> is_token ts a = Done true.
Proof. intros [H|H]; unfold is_token; rewrite H; [by rewrite N.eqb_refl, !orb_true_r|by rewrite N.eqb_refl, !orb_true_r]. Qed.

Lemma for_insert p pk a wv t si mints : sm_sorted p -> t <> si_slot si ->
  pd_for_slot (pd_insert p pk a wv t).1 si mints = ('(q, l) ← pd_for_slot p si mints; Done ((pd_insert q pk a wv t).1, l)).
Proof.
  intros Hs Hne. unfold pd_for_slot. rewrite (proj2 (ins_spec p pk a wv t)), decide_False by done. destruct (sm_get (si_slot si) p) as [b|].
  - by destruct (to_accts _ _).
  - cbn [mbind res_bind]. by destruct (insert_info p pk a wv t si Hs Hne) as [-> _].
Qed.
Lemma for_insert_flag p pk a wv t si mints q l : sm_sorted p -> t <> si_slot si -> pd_for_slot p si mints = Done (q, l) -> (pd_insert q pk a wv t).2 = (pd_insert p pk a wv t).2.
Proof. intros Hs Hne H. apply pd_for_slot_pend in H as ->. destruct (sm_get _ _); [done|]. by apply insert_info. Qed.
Lemma add_finalized_swap ts p x : add_finalized (set_pend ts p) x = (t ← add_finalized ts x; Done (set_pend t p)).
Proof.
  destruct x as [t|m|m pk|pk]; simpl; unfold add_token; cbn [ts_table ts_mint_ix set_pend].
  - destruct (tb_save _ _) as [[[tb i] b]|]; [|done]. cbn [mbind res_bind]. by destruct b.
  - by destruct (_ !! _).
  - done.
  - destruct (_ !! _); [done|]. by destruct (tb_delete _ _).
Qed.
Lemma add_all_swap l : forall ts p, add_all (set_pend ts p) l = (t ← add_all ts l; Done (set_pend t p)).
Proof.
  induction l as [|x l IH]; intros ts p; cbn [add_all mbind res_bind]; [done|]. rewrite add_finalized_swap. destruct (add_finalized ts x) as [t|]; cbn [mbind res_bind]; [apply IH|done].
Qed.
(** What a finalized notification does once the slot is noted. *)
Definition settle_as (ord : drain) (ts : tstore) (q : pend) (m : gmap pubkey (pacct * N)) : res (tstore * list acct) :=
  r ← to_accts (ts_mints (set_pend ts q)) ((fun '((ty, wv), slot) => (ty, slot, wv)) <$> ((fun x => x.2) <$> ord m));
  ts' ← add_all (set_pend ts q) ((fun x => x.1.1) <$> ((fun x => x.2) <$> ord m)); Done (ts', r).
Definition settle (ord : drain) (ts : tstore) (p : pend) (s : N) : res (tstore * list acct) := settle_as ord ts (pd_finalize p s).1 (pd_finalize p s).2.
Lemma slot_settle ord ts si : ts_slot ord ts si Finalized =
  settle ord (set_fin ts (if ts_fin ts <? si_slot si then si_slot si else ts_fin ts)) (if ts_fin ts <? si_slot si then pd_slot_info (ts_pend ts) si else ts_pend ts) (si_slot si).
Proof.
  cbn [ts_slot]. unfold settle, settle_as. destruct (ts_fin ts <? si_slot si); cbn [ts_pend set_pend set_fin].
  - by destruct (pd_finalize (pd_slot_info (ts_pend ts) si) (si_slot si)) as [q m].
  - assert (set_fin ts (ts_fin ts) = ts) as -> by (by destruct ts). by destruct (pd_finalize (ts_pend ts) (si_slot si)) as [q m].
Qed.
Lemma settle_pend ord ts d p0 p s : settle ord (set_fin (set_pend ts p0) d) p s = settle ord (set_fin ts d) p s.
Proof. done. Qed.

(** ** The theorems *)
Definition ups (us : list (acct * commitment)) : list tsop := (fun u => TUpdate u.1 u.2) <$> us.
(** Slot and write version tell the updates of one account apart. *)
Definition one_version (us : list (acct * commitment)) : Prop :=
  forall u v, u ∈ us -> v ∈ us -> d_pubkey u.1 = d_pubkey v.1 -> d_slot u.1 = d_slot v.1 -> d_wv u.1 = d_wv v.1 -> u.1 = v.1.
Lemma step_put E X ts a c : c <> Finalized -> mint_numbered E ts a -> ts_step E X ts (TUpdate a c) = (o ← read_as E ts a; Done (put ts a o).1).
Proof. intros Hc Hm. cbn [ts_step]. rewrite update_put by done. destruct (read_as E ts a) as [o|]; [|done]. cbn [mbind res_bind]. by destruct (put ts a o). Qed.
Lemma read_put E ts a o b : read_as E (put ts a o).1 b = read_as E ts b.
Proof. by destruct (put_pend ts a o) as [p ->]. Qed.
Lemma numbered_put E ts a o b : mint_numbered E ts b -> mint_numbered E (put ts a o).1 b.
Proof. by destruct (put_pend ts a o) as [p ->]. Qed.
Lemma put_sorted ts a o : sm_sorted (ts_pend ts) -> sm_sorted (ts_pend (put ts a o).1).
Proof. intros Hs. destruct o; simpl; [by apply pd_insert_sorted|done]. Qed.
Lemma batch_perm E X us vs : us ≡ₚ vs -> forall ts, sm_sorted (ts_pend ts) -> Forall (fun u => u.2 <> Finalized /\ mint_numbered E ts u.1) us -> one_version us ->
  ts_run E X ts (ups us) = ts_run E X ts (ups vs).
Proof.
  induction 1 as [|u us vs Hp IH|u v us|us vs ws H1 IH1 H2 IH2]; intros ts Hs Hall Hone.
  - done.
  - apply Forall_cons in Hall as [[Hc Hm] Hall]. unfold ups. cbn [fmap list_fmap ts_run]. rewrite step_put by done. destruct (read_as E ts u.1) as [o|]; [|done]. cbn [mbind res_bind].
    apply IH; [by apply put_sorted| |intros x y Hx Hy; apply Hone; by right]. eapply Forall_impl; [exact Hall|]. intros x [Hx1 Hx2]. split; [done|by apply numbered_put].
  - apply Forall_cons in Hall as [[Hc Hm] Hall]. apply Forall_cons in Hall as [[Hc' Hm'] _]. unfold ups. cbn [fmap list_fmap ts_run]. rewrite !step_put by done.
    destruct (read_as E ts u.1) as [o|] eqn:Ho; destruct (read_as E ts v.1) as [o'|] eqn:Ho'; cbn [mbind res_bind]; rewrite ?step_put by (done || by apply numbered_put); rewrite ?read_put, ?Ho, ?Ho'; cbn [mbind res_bind]; try done.
    rewrite (put_put ts v.1 o' u.1 o); [done|done|]. intros E1 E2 E3. assert (v.1 = u.1) as He by (apply Hone; [left|right; left|done|done|done] || (apply Hone; [right; left|left|done|done|done])). congruence.
  - rewrite IH1 by done. apply IH2; [done|by rewrite <- H1|]. intros x y Hx Hy. rewrite <- H1 in Hx, Hy. by apply Hone.
Qed.
(** Updates below finalized that the store receives in any order put it in the same state, so that nothing can tell later in which order they came. *)
Theorem C110_arrival_order : forall E X l ts us vs,
  ts_run E X ts_empty l = Done ts -> us ≡ₚ vs -> Forall (fun u => u.2 <> Finalized /\ mint_numbered E ts u.1) us -> one_version us ->
  ts_run E X ts (ups us) = ts_run E X ts (ups vs).
Proof. intros E X l ts us vs Hl Hp Hall Hone. apply batch_perm; [done| |done|done]. apply (run_sorted _ _ _ _ _ Hl). constructor. Qed.
Print Assumptions C110_arrival_order.

Lemma overtake_sorted : forall E ts a c ord si k,
  sm_sorted (ts_pend ts) -> k <> Finalized -> (forall p d, ts_update E (set_pend (set_conf ts d) p) a c = (o ← read_as E ts a; Done (put (set_pend (set_conf ts d) p) a o))) -> d_slot a <> si_slot si ->
  ('(s1, r) ← ts_update E ts a c; '(s2, rep) ← ts_slot ord s1 si k; Done (s2, r, rep)) = ('(t1, rep) ← ts_slot ord ts si k; '(t2, r) ← ts_update E t1 a c; Done (t2, r, rep)).
Proof.
  intros E ts a c ord si k Hs Hk Hup Hne. assert (set_pend (set_conf ts (ts_conf ts)) (ts_pend ts) = ts) as Hid by (by destruct ts).
  assert (ts_update E ts a c = (o ← read_as E ts a; Done (put ts a o))) as -> by (rewrite <- Hid at 1; rewrite Hup, Hid; done).
  destruct k; [| |done].
  - cbn [ts_slot mbind res_bind]. change (set_pend ts (pd_slot_info (ts_pend ts) si)) with (set_pend (set_conf ts (ts_conf ts)) (pd_slot_info (ts_pend ts) si)). rewrite Hup.
    destruct (read_as E ts a) as [[ty|]|]; cbn [mbind res_bind put]; try done. destruct (insert_info (ts_pend ts) (d_pubkey a) ty (d_wv a) (d_slot a) si Hs Hne) as [E1 E2].
    cbn [ts_slot mbind res_bind ts_pend set_pend set_conf]. rewrite E1, E2. done.
  - assert (forall d p, sm_sorted p -> ('(q, rep) ← pd_for_slot p si (ts_mints ts); '(t2, r) ← ts_update E (set_pend (set_conf ts d) q) a c; Done (t2, r, rep)) =
      (o ← read_as E ts a; '(q, rep) ← pd_for_slot (ts_pend (put (set_pend (set_conf ts d) p) a o).1) si (ts_mints ts); Done (set_pend (set_conf ts d) q, (put (set_pend (set_conf ts d) p) a o).2, rep))) as Hrest.
    { intros d p Hp. destruct (read_as E ts a) as [o|] eqn:Ho; cbn [mbind res_bind].
      - destruct o as [ty|]; cbn [put fst snd ts_pend set_pend set_conf].
        + rewrite for_insert by done. destruct (pd_for_slot p si (ts_mints ts)) as [[q rep]|] eqn:Hf; cbn [mbind res_bind]; [|done]. rewrite Hup. cbn [mbind res_bind put ts_pend set_pend set_conf].
          by rewrite (for_insert_flag _ _ _ _ _ _ _ _ _ Hp Hne Hf).
        + destruct (pd_for_slot p si (ts_mints ts)) as [[q rep]|]; cbn [mbind res_bind]; [|done]. by rewrite Hup.
      - destruct (pd_for_slot p si (ts_mints ts)) as [[q rep]|]; cbn [mbind res_bind]; [|done]. by rewrite Hup. }
    cbn [ts_slot]. destruct (ts_conf ts <? si_slot si) eqn:Hlt.
    + cbn [ts_pend set_pend set_conf ts_mints]. specialize (Hrest (si_slot si) (pd_slot_info (ts_pend ts) si) ltac:(by apply pd_slot_info_sorted)).
      transitivity ('(q, rep) ← pd_for_slot (pd_slot_info (ts_pend ts) si) si (ts_mints ts); '(t2, r) ← ts_update E (set_pend (set_conf ts (si_slot si)) q) a c; Done (t2, r, rep)).
      2:{ destruct (pd_for_slot _ _ _) as [[q rep]|]; done. }
      rewrite Hrest. destruct (read_as E ts a) as [[ty|]|]; cbn [mbind res_bind put fst snd ts_pend set_pend set_conf ts_conf]; [|rewrite Hlt|done].
      * rewrite Hlt. destruct (insert_info (ts_pend ts) (d_pubkey a) ty (d_wv a) (d_slot a) si Hs Hne) as [E1 E2]. cbn [ts_pend set_pend set_conf ts_mints]. rewrite E1, E2. by destruct (pd_for_slot (pd_insert (pd_slot_info (ts_pend ts) si) (d_pubkey a) ty (d_wv a) (d_slot a)).1 si (ts_mints ts)) as [[q rep]|].
      * cbn [ts_pend set_pend set_conf ts_mints]. destruct (pd_for_slot _ _ _) as [[q rep]|]; done.
    + specialize (Hrest (ts_conf ts) (ts_pend ts) Hs). rewrite Hid in Hrest.
      transitivity ('(q, rep) ← pd_for_slot (ts_pend ts) si (ts_mints ts); '(t2, r) ← ts_update E (set_pend (set_conf ts (ts_conf ts)) q) a c; Done (t2, r, rep)).
      2:{ destruct (pd_for_slot _ _ _) as [[q rep]|]; done. }
      rewrite Hrest. destruct (read_as E ts a) as [[ty|]|]; cbn [mbind res_bind put fst snd ts_pend set_pend set_conf ts_conf]; [|rewrite Hlt|done].
      * rewrite Hlt. cbn [ts_pend set_pend set_conf ts_mints]. by destruct (pd_for_slot (pd_insert (ts_pend ts) (d_pubkey a) ty (d_wv a) (d_slot a)).1 si (ts_mints ts)) as [[q rep]|].
      * destruct (pd_for_slot _ _ _) as [[q rep]|]; done.
Qed.
(** An update below finalized and a processed or confirmed notification of another slot: same answers, same reports, same state. *)
Theorem C110_overtake : forall E X l ts a c ord si k,
  ts_run E X ts_empty l = Done ts -> c <> Finalized -> k <> Finalized -> mint_numbered E ts a -> d_slot a <> si_slot si ->
  ('(s1, r) ← ts_update E ts a c; '(s2, rep) ← ts_slot ord s1 si k; Done (s2, r, rep)) = ('(t1, rep) ← ts_slot ord ts si k; '(t2, r) ← ts_update E t1 a c; Done (t2, r, rep)).
Proof.
  intros E X l ts a c ord si k Hl Hc Hk Hm Hne. apply overtake_sorted; [apply (run_sorted _ _ _ _ _ Hl); constructor|done| |done]. intros p d. by rewrite update_put.
Qed.
Print Assumptions C110_overtake.

(** A slot of which something is pending may be announced at processed before or after an update of it. *)
Theorem C110_announced : forall E X l ts a c ord si,
  ts_run E X ts_empty l = Done ts -> c <> Finalized -> mint_numbered E ts a -> d_slot a = si_slot si -> present (ts_pend ts) (si_slot si) ->
  ('(s1, r) ← ts_update E ts a c; '(s2, rep) ← ts_slot ord s1 si Processed; Done (s2, r, rep)) = ('(t1, rep) ← ts_slot ord ts si Processed; '(t2, r) ← ts_update E t1 a c; Done (t2, r, rep)).
Proof.
  intros E X l ts a c ord si Hl Hc Hm Heq Hpr. assert (sm_sorted (ts_pend ts)) as Hs by (apply (run_sorted _ _ _ _ _ Hl); constructor). apply present_get in Hpr; [|done].
  rewrite update_put by done. cbn [ts_slot mbind res_bind]. rewrite (update_put E (set_pend ts (pd_slot_info (ts_pend ts) si)) a c) by done.
  change (read_as E (set_pend ts (pd_slot_info (ts_pend ts) si)) a) with (read_as E ts a). destruct (read_as E ts a) as [[ty|]|]; cbn [mbind res_bind put]; try done.
  destruct (insert_info_known (ts_pend ts) (d_pubkey a) ty (d_wv a) si Hs Hpr) as [E1 E2]. cbn [ts_slot mbind res_bind ts_pend set_pend]. rewrite Heq, E1, E2. done.
Qed.
Print Assumptions C110_announced.

(** A finalized notification and an update of a newer slot, of an account of the token programs whose mint keeps its number. *)
Theorem C110_overtake_finalized : forall E X l ts a c ord si,
  ts_run E X ts_empty l = Done ts -> parents_first l -> si_parent si < si_slot si -> c <> Finalized -> mint_numbered E ts a -> si_slot si < d_slot a ->
  d_owner a = spl_token_id \/ d_owner a = spl_2022_id ->
  (forall t1 rep v r, ts_slot ord ts si Finalized = Done (t1, rep) -> data_bytes E (d_data a) = Done v -> unpack_account v = Some r -> ts_mint_ix t1 !! sa_mint r = ts_mint_ix ts !! sa_mint r) ->
  ('(s1, r) ← ts_update E ts a c; '(s2, rep) ← ts_slot ord s1 si Finalized; Done (s2, r, rep)) = ('(t1, rep) ← ts_slot ord ts si Finalized; '(t2, r) ← ts_update E t1 a c; Done (t2, r, rep)).
Proof.
  intros E X l ts a c ord si Hl Hpf Hpar Hc Hm Hlt Hown Hkeep. assert (sm_sorted (ts_pend ts)) as Hs by (apply (run_sorted _ _ _ _ _ Hl); constructor).
  assert (pdesc (ts_pend ts)) as Hd by (apply (run_desc _ _ _ _ _ Hl Hpf); [constructor|done]). assert (d_slot a <> si_slot si) as Hne by lia.
  rewrite update_put by done.
  (* the notification on a store with another pending part *)
  set (d := if ts_fin ts <? si_slot si then si_slot si else ts_fin ts). set (p := if ts_fin ts <? si_slot si then pd_slot_info (ts_pend ts) si else ts_pend ts).
  assert (sm_sorted p) as Hsp by (unfold p; destruct (_ <? _); [by apply pd_slot_info_sorted|done]). assert (pdesc p) as Hdp by (unfold p; destruct (_ <? _); [by apply pdesc_info|done]).
  assert (ts_slot ord ts si Finalized = settle ord (set_fin ts d) p (si_slot si)) as Ht by apply slot_settle.
  assert (forall o, exists p1, ts_slot ord (put ts a o).1 si Finalized = settle ord (set_fin ts d) p1 (si_slot si) /\
      p1 = ts_pend (put (set_pend ts p) a o).1 /\ (put (set_pend ts p) a o).2 = (put ts a o).2) as Hs1.
  { intros o. exists (ts_pend (put (set_pend ts p) a o).1). destruct o as [ty|]; [|done]. cbn [put fst snd ts_pend set_pend]. rewrite slot_settle, settle_pend. cbn [ts_fin ts_pend set_pend]. fold d.
    unfold p. destruct (ts_fin ts <? si_slot si); [|done]. destruct (insert_info (ts_pend ts) (d_pubkey a) ty (d_wv a) (d_slot a) si Hs Hne) as [E1 E2]. rewrite E1, E2. done. }
  rewrite Ht. rewrite Ht in Hkeep.
  assert (forall o, exists q1, let q := (pd_finalize p (si_slot si)).1 in ts_slot ord (put ts a o).1 si Finalized = settle_as ord (set_fin ts d) q1 (pd_finalize p (si_slot si)).2 /\
    forall u, q1 = ts_pend (put (set_pend u q) a o).1 /\ (put (set_pend u q) a o).2 = (put ts a o).2) as Hq.
  { intros o. destruct (Hs1 o) as (p1 & -> & -> & <-). destruct o as [ty|]; cbn [put fst snd ts_pend set_pend].
    - destruct (ins_spec p (d_pubkey a) ty (d_wv a) (d_slot a)) as [I1 I2]. destruct (finalize_frame p (pd_insert p (d_pubkey a) ty (d_wv a) (d_slot a)).1 (si_slot si) (d_slot a) Hsp) as (F1 & F2 & F3 & F4 & F5);
        [by apply pd_insert_sorted|done|by apply pdesc_ins|intros k Hk; by rewrite I2, decide_False|done|].
      destruct (ins_spec (pd_finalize p (si_slot si)).1 (d_pubkey a) ty (d_wv a) (d_slot a)) as [J1 J2].
      assert (sm_get (d_slot a) (pd_finalize p (si_slot si)).1 = sm_get (d_slot a) p) as Hsame by (rewrite F2; destruct (N.leb_spec (d_slot a) (si_slot si)); [lia|done]). rewrite Hsame in J1, J2.
      exists (pd_finalize (pd_insert p (d_pubkey a) ty (d_wv a) (d_slot a)).1 (si_slot si)).1. split; [unfold settle; by rewrite F1|]. intros u. split; [|by rewrite J1, I1].
      apply sm_ext; [done|by apply pd_insert_sorted|]. intros k. rewrite F3, I2, J2, F2. destruct (decide (k = d_slot a)) as [->|]; [|done]. destruct (N.leb_spec (d_slot a) (si_slot si)); [lia|done].
    - eexists. split; [reflexivity|]. intros u. done. }
  unfold settle in *. unfold settle_as in *. cbn zeta in Hq.
  set (ls := (fun x => x.2) <$> ord (pd_finalize p (si_slot si)).2) in *.
  assert (forall q u, to_accts (ts_mints (set_pend u q)) = to_accts (ts_mints u)) as Hm1 by done. rewrite !Hm1 in *.
  assert (forall o, exists q1, ts_slot ord (put ts a o).1 si Finalized = (r ← to_accts (ts_mints (set_fin ts d)) ((fun '((ty, wv), slot) => (ty, slot, wv)) <$> ls); ts' ← add_all (set_fin ts d) ((fun x => x.1.1) <$> ls); Done (set_pend ts' q1, r)) /\
    forall u, q1 = ts_pend (put (set_pend u (pd_finalize p (si_slot si)).1) a o).1 /\ (put (set_pend u (pd_finalize p (si_slot si)).1) a o).2 = (put ts a o).2) as Hq'.
  { intros o. destruct (Hq o) as (q1 & -> & H2). exists q1. split; [|exact H2]. rewrite Hm1, add_all_swap. destruct (to_accts _ _); [|done]. cbn [mbind res_bind]. by destruct (add_all (set_fin ts d) ((fun x => x.1.1) <$> ls)). }
  clear Hq Hs1 Ht. rewrite add_all_swap in Hkeep |- *.
  destruct (to_accts (ts_mints (set_fin ts d)) _) as [rep|] eqn:Hto; cbn [mbind res_bind] in *.
  2:{ destruct (read_as E ts a) as [o|]; cbn [mbind res_bind]; [|done]. destruct (Hq' o) as (q1 & H1 & _). destruct (put ts a o) as [s1 r]. cbn [fst] in H1. by rewrite H1. }
  destruct (add_all (set_fin ts d) _) as [u|] eqn:Hadd; cbn [mbind res_bind] in *.
  2:{ destruct (read_as E ts a) as [o|]; cbn [mbind res_bind]; [|done]. destruct (Hq' o) as (q1 & H1 & _). destruct (put ts a o) as [s1 r]. cbn [fst] in H1. by rewrite H1. }
  set (q := (pd_finalize p (si_slot si)).1) in *.
  assert (forall v r, data_bytes E (d_data a) = Done v -> unpack_account v = Some r -> ts_mint_ix u !! sa_mint r = ts_mint_ix ts !! sa_mint r) as Hk2 by (intros v r; by apply (Hkeep (set_pend u q) rep)).
  rewrite (update_put E (set_pend u q) a c Hc).
  2:{ intros v r Hv Hr. cbn [ts_mint_ix set_pend]. rewrite (Hk2 v r Hv Hr). by apply (Hm v r). }
  assert (read_as E (set_pend u q) a = read_as E ts a) as ->.
  { unfold read_as. rewrite !owner_is_token by done. cbn [mbind res_bind]. apply account_type_same. intros v r Hv Hr. split; [by apply (Hm v r)|by apply (Hk2 v r)]. }
  destruct (read_as E ts a) as [o|]; cbn [mbind res_bind]; [|done]. destruct (Hq' o) as (q1 & H1 & H2). destruct (H2 u) as [-> H3]. destruct (put ts a o) as [s1 r]. cbn [fst snd] in H1, H3. rewrite H1. cbn [mbind res_bind].
  destruct o as [ty|]; cbn [put fst snd ts_pend set_pend] in *; by rewrite <- H3.
Qed.
Print Assumptions C110_overtake_finalized.

(** Any number of updates. *)
Theorem C110_batch_overtakes : forall E X us l ts ord si k,
  ts_run E X ts_empty l = Done ts -> k <> Finalized -> Forall (fun u => u.2 <> Finalized /\ mint_numbered E ts u.1 /\ d_slot u.1 <> si_slot si) us ->
  ts_run E X ts (ups us ++ [TSlot ord si k]) = ts_run E X ts (TSlot ord si k :: ups us).
Proof.
  intros E X us. induction us as [|u us IH]; intros l ts ord si k Hl Hk Hall; [done|]. apply Forall_cons in Hall as [(Hc & Hm & Hne) Hall].
  pose proof (C110_overtake E X l ts u.1 u.2 ord si k Hl Hc Hk Hm Hne) as Hsw. unfold ups in *. cbn [fmap list_fmap app ts_run]. cbn [ts_step]. pose proof (update_put E ts u.1 u.2 Hc Hm) as Hup.
  destruct (ts_update E ts u.1 u.2) as [[s1 r]|] eqn:Hu; cbn [mbind res_bind] in *.
  - assert (ts_run E X ts_empty (l ++ [TUpdate u.1 u.2]) = Done s1) as Hl1 by (rewrite (run_app_done _ _ _ _ _ _ Hl); cbn [ts_run ts_step]; by rewrite Hu).
    destruct (read_as E ts u.1) as [o|]; [|done]. injection Hup as Hput. rewrite (IH _ s1 ord si k Hl1 Hk).
    + cbn [ts_run ts_step]. destruct (ts_slot ord s1 si k) as [[s2 rep]|]; cbn [mbind res_bind] in *; (destruct (ts_slot ord ts si k) as [[t1 rep']|]; cbn [mbind res_bind] in *; [|done]);
        (destruct (ts_update E t1 u.1 u.2) as [[t2 r']|]; cbn [mbind res_bind] in *; [|done]); [|done]. by injection Hsw as -> _ _.
    + eapply Forall_impl; [exact Hall|]. intros x (H1 & H2 & H3). split_and!; [done| |done]. assert (s1 = (put ts u.1 o).1) as -> by (by rewrite <- Hput). by apply numbered_put.
  - destruct (ts_slot ord ts si k) as [[t1 rep']|]; cbn [mbind res_bind] in *; [|done]. destruct (ts_update E t1 u.1 u.2) as [[t2 r']|]; cbn [mbind res_bind] in *; done.
Qed.
Print Assumptions C110_batch_overtakes.

Definition h110 : list tsop := [TInit (mintd 1001 50 1 1); TUpdate (tokd 77 1001 1002 5 9 1) Processed].
Definition us110 : list (acct * commitment) := [(tokd 77 1001 1002 6 10 2, Processed); (tokd 77 1001 1002 7 10 3, Confirmed); (tokd 78 1001 1003 5 11 4, Processed)].
Lemma numbered_tokd l pk o amt s w : ts_mint_ix (final l) !! 1001 = Some 0 -> mint_numbered E0 (final l) (tokd pk 1001 o amt s w) \/ unpack_account (pack_account (SplAccount 1001 o amt None Init None 0 None)) <> Some (SplAccount 1001 o amt None Init None 0 None).
Proof.
  intros Hi. destruct (decide (unpack_account (pack_account (SplAccount 1001 o amt None Init None 0 None)) = Some (SplAccount 1001 o amt None Init None 0 None))) as [Hu|]; [left|by right].
  intros v r [= <-] Hr. rewrite Hu in Hr. injection Hr as <-. exists 0. exact Hi.
Qed.
Ltac numbered := match goal with |- mint_numbered E0 (final ?l) (tokd ?pk 1001 ?o ?amt ?s ?w) =>
  destruct (numbered_tokd l pk o amt s w) as [Hnum|Hnum]; [by vm_compute|exact Hnum|exfalso; apply Hnum; by vm_compute] end.
(** Three updates, two of them for the same account and slot: the last write version is held in every order. *)
Example C110_arrival_example : ts_run E0 X0 ts_empty h110 = Done (final h110) /\ Forall (fun u => u.2 <> Finalized /\ mint_numbered E0 (final h110) u.1) us110 /\ one_version us110 /\
  ts_get (final (h110 ++ ups us110)) 77 Processed = Done (ROk (Some (tokd 77 1001 1002 7 10 0))) /\ ts_get (final (h110 ++ ups (reverse us110))) 77 Processed = Done (ROk (Some (tokd 77 1001 1002 7 10 0))).
Proof.
  split; [apply final_run; by vm_compute|]. split; [|split; [|split; by vm_compute]].
  - unfold us110. repeat (apply Forall_cons_2; [cbn [fst snd]; split; [done|numbered]|]). by apply Forall_nil_2.
  - intros u v Hu Hv H1 H2 H3. unfold us110 in Hu, Hv. rewrite !elem_of_cons, elem_of_nil in Hu, Hv. destruct_or?; subst; try done.
Qed.
(** The slot 9 is confirmed and reports the version of it, before or after the updates of the slots 10 and 11. *)
Example C110_overtake_example : Forall (fun u => u.2 <> Finalized /\ mint_numbered E0 (final h110) u.1 /\ d_slot u.1 <> 9) us110 /\
  (exists t1 t2, ts_slot ord0 (final h110) (SlotInfo 9 8 0) Confirmed = Done (t1, [tokd 77 1001 1002 5 9 1]) /\ ts_slot ord0 (final (h110 ++ ups us110)) (SlotInfo 9 8 0) Confirmed = Done (t2, [tokd 77 1001 1002 5 9 1]) /\
    ts_get t2 77 Confirmed = Done (ROk (Some (tokd 77 1001 1002 5 9 0))) /\ ts_get t2 77 Processed = Done (ROk (Some (tokd 77 1001 1002 7 10 0)))) /\
  present (ts_pend (final h110)) 9.
Proof.
  split; [unfold us110; repeat (apply Forall_cons_2; [cbn [fst snd]; split; [done|split; [numbered|done]]|]); by apply Forall_nil_2|]. split.
  - eexists _, _. split; [by vm_compute|]. split; [by vm_compute|]. split; by vm_compute.
  - apply present_get; [|eexists; by vm_compute]. apply (run_sorted E0 X0 h110 ts_empty); [apply final_run; by vm_compute|constructor].
Qed.
(** The slot 9 is finalized before or after the update of slot 10. *)
Example C110_finalized_example : parents_first h110 /\ mint_numbered E0 (final h110) (tokd 77 1001 1002 6 10 2) /\
  exists t1, ts_slot ord0 (final h110) (SlotInfo 9 8 0) Finalized = Done (t1, [tokd 77 1001 1002 5 9 1]) /\ ts_mint_ix t1 !! 1001 = ts_mint_ix (final h110) !! 1001 /\
    ts_get t1 77 Finalized = Done (ROk (Some (tokd 77 1001 1002 5 9 0))).
Proof.
  split; [intros ord si c H; unfold h110 in H; rewrite !elem_of_cons, elem_of_nil in H; by destruct_or?|]. split; [numbered|]. eexists. split; [by vm_compute|]. split; by vm_compute.
Qed.

(** The conditions are needed.  Two versions with the same slot and write version: the first stays. *)
Theorem C110_same_version_refuted : exists E X l ts u v ts1 ts2, ts_run E X ts_empty l = Done ts /\ Forall (fun u => u.2 <> Finalized /\ mint_numbered E ts u.1) [u; v] /\
  ts_run E X ts (ups [u; v]) = Done ts1 /\ ts_run E X ts (ups [v; u]) = Done ts2 /\ ts_get ts1 77 Processed <> ts_get ts2 77 Processed.
Proof.
  exists E0, X0, h110, (final h110), (tokd 77 1001 1002 6 10 2, Processed), (tokd 77 1001 1002 7 10 2, Processed), (final (h110 ++ ups [(tokd 77 1001 1002 6 10 2, Processed); (tokd 77 1001 1002 7 10 2, Processed)])),
    (final (h110 ++ ups [(tokd 77 1001 1002 7 10 2, Processed); (tokd 77 1001 1002 6 10 2, Processed)])).
  split; [apply final_run; by vm_compute|]. split; [repeat (apply Forall_cons_2; [cbn [fst snd]; split; [done|numbered]|]); by apply Forall_nil_2|]. split; [apply final_app; by vm_compute|]. split; [apply final_app; by vm_compute|]. by vm_compute.
Qed.
Print Assumptions C110_same_version_refuted.
(** A slot that nothing is known of: announced before its first update it is recorded without its parent, and an account of the parent is not found at confirmed later. *)
Theorem C110_announced_first_refuted : exists E X l ts a ord si rest ts1 ts2 x, ts_run E X ts_empty l = Done ts /\ mint_numbered E ts a /\ d_slot a = si_slot si /\
  ts_run E X ts (TUpdate a Processed :: TSlot ord si Processed :: rest) = Done ts1 /\ ts_run E X ts (TSlot ord si Processed :: TUpdate a Processed :: rest) = Done ts2 /\
  ts_get ts1 77 Confirmed = Done (ROk (Some x)) /\ ts_get ts2 77 Confirmed = Done (ROk None).
Proof.
  set (a := tokd 78 1001 1003 5 10 4). set (si := SlotInfo 10 9 0). set (rest := [TSlot ord0 (SlotInfo 11 10 0) Processed; TSlot ord0 (SlotInfo 11 10 0) Confirmed]).
  exists E0, X0, h110, (final h110), a, ord0, si, rest, (final (h110 ++ TUpdate a Processed :: TSlot ord0 si Processed :: rest)), (final (h110 ++ TSlot ord0 si Processed :: TUpdate a Processed :: rest)), (tokd 77 1001 1002 5 9 0).
  split; [apply final_run; by vm_compute|]. split; [unfold a; numbered|]. split; [done|]. split; [apply final_app; by vm_compute|]. split; [apply final_app; by vm_compute|]. split; by vm_compute.
Qed.
Print Assumptions C110_announced_first_refuted.
(** An account that is closed in a newer slot: before its opening is finalized the store does not know it and ignores the close, and goes on serving it. *)
Theorem C110_closed_refuted : exists E X l ts a ord si ts1 ts2 x, ts_run E X ts_empty l = Done ts /\ parents_first l /\ si_parent si < si_slot si /\ mint_numbered E ts a /\ si_slot si < d_slot a /\
  ts_run E X ts [TUpdate a Processed; TSlot ord si Finalized] = Done ts1 /\ ts_run E X ts [TSlot ord si Finalized; TUpdate a Processed] = Done ts2 /\
  ts_get ts1 (d_pubkey a) Processed = Done (ROk (Some x)) /\ ts_get ts2 (d_pubkey a) Processed = Done (ROk None).
Proof.
  set (a := closed 77 10 2). set (si := SlotInfo 9 8 0).
  exists E0, X0, h110, (final h110), a, ord0, si, (final (h110 ++ [TUpdate a Processed; TSlot ord0 si Finalized])), (final (h110 ++ [TSlot ord0 si Finalized; TUpdate a Processed])), (tokd 77 1001 1002 5 9 0).
  split; [apply final_run; by vm_compute|]. split; [apply C110_finalized_example|]. split; [done|]. split; [intros v r Hv Hr; vm_compute in Hv; injection Hv as <-; vm_compute in Hr; discriminate Hr|]. split; [done|].
  split; [apply final_app; by vm_compute|]. split; [apply final_app; by vm_compute|]. split; by vm_compute.
Qed.
Print Assumptions C110_closed_refuted.
