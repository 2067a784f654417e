(** C111: the numbers that the token store gives to mints cannot be noticed, so accounts of mints never seen before may arrive
    in any order (get_or_create_mint_index, token_program_utils.rs 40-53; update_account, inmemory_token_storage.rs 558-589). *)
From Verif Require Import Base SMap DataModel BincodeModel BincodeProofs FilterModel FilterProofs StoreModel TokenModel TokenProofs TokenProps SplModel SplProofs TokenUtilsModel
  TokenUtilsProofs TokenPendModel TokenPendSpec TokenPendProofs TokenPendProps TokenUtilsProps TokenStoreModel TokenStoreSpec TokenStoreProofs TokenStoreViews TokenStoreProps TokenStoreOrder
  TokenStoreQuery TokenStoreQueryProps TokenStoreSafe TokenAnswerProps TokenArrivalProps TokenSnapSpec TokenSnapProofs TokenSnapProps.

(** ** What the calls answer *)
Inductive answer := AChanged (b : bool) | ANothing | AReport (l : list acct).
Definition hear (E : ext) (X : lz4x) (ts : tstore) (o : tsop) : res (tstore * answer) :=
  match o with
  | TUpdate a c => '(t, b) ← ts_update E ts a c; Done (t, AChanged b)
  | TInit a => t ← ts_init E ts a; Done (t, ANothing)
  | TSlot ord si c => '(t, l) ← ts_slot ord ts si c; Done (t, AReport l)
  | TLoad p b => '(t, _) ← ts_load X ts p b; Done (t, ANothing)
  end.
Fixpoint hears (E : ext) (X : lz4x) (ts : tstore) (l : list tsop) : res (tstore * list answer) :=
  match l with
  | [] => Done (ts, [])
  | o :: l' => '(t, a) ← hear E X ts o; '(t', r) ← hears E X t l'; Done (t', a :: r)
  end.
(** The order of the accounts of a report is not modelled. *)
Definition same_answer (x y : answer) : Prop := match x, y with AReport l, AReport l' => l ≡ₚ l' | _, _ => x = y end.
(** The same calls; the maps may be enumerated differently. *)
Definition same_call (o o' : tsop) : Prop := match o, o' with TSlot _ si c, TSlot _ si' c' => si = si' /\ c = c' | _, _ => o = o' end.

(** ** Renumbering by a function [f] *)
Definition ren (f : N -> N) (t : token_account) : token_account := with_mint t (f (ta_mint t)).
Definition rtpa (f : N -> N) (a : tpa) : tpa := match a with TPToken t => TPToken (ren f t) | _ => a end.
Definition rp (f : N -> N) (x : pacct) : pacct := (rtpa f x.1, x.2).
Definition rb (f : N -> N) (b : pslot) : pslot := PSlot (rp f <$> ps_accounts b) (ps_parent b).
Definition rpend (f : N -> N) (p : pend) : pend := (fun x => (x.1, rb f x.2)) <$> p.
Definition rps (f : N -> N) (x : pacct * N) : pacct * N := (rp f x.1, x.2).
Definition rret (f : N -> N) (l : list (option (pacct * N))) : list (option (pacct * N)) := fmap (M := list) (fun o : option (pacct * N) => rps f <$> o) l.
(** Stored bytes: the same key; deleted ones may differ otherwise. *)
Definition vrel (f : N -> N) (v v' : bytes) : Prop := peek_pubkey v = peek_pubkey v' /\
  exists t t', from_bytes v = Done t /\ from_bytes v' = Done t' /\ ta_deleted t = ta_deleted t' /\ (ta_deleted t = false -> t' = ren f t).
Definition tbrel (f : N -> N) (tb tb' : table) : Prop := tb_index tb' = tb_index tb /\ Forall2 (vrel f) (tb_accounts tb) (tb_accounts tb').
Record renumbered (f : N -> N) (ts ts' : tstore) : Prop := Renumbered {
  rn_mints : ts_mints ts' = kmap f (ts_mints ts);
  rn_ix : ts_mint_ix ts' = f <$> ts_mint_ix ts;
  rn_multi : ts_multi ts' = ts_multi ts;
  rn_bm : ts_by_mint ts' = kmap f (ts_by_mint ts);
  rn_bo : ts_by_owner ts' = ts_by_owner ts;
  rn_table : tbrel f (ts_table ts) (ts_table ts');
  rn_pend : ts_pend ts' = rpend f (ts_pend ts);
  rn_conf : ts_conf ts' = ts_conf ts;
  rn_fin : ts_fin ts' = ts_fin ts;
  rn_ctr : ts_ctr ts' = ts_ctr ts }.

Section renumber.
  Context (f g : N -> N) (Hgf : forall i, g (f i) = i) (Hfg : forall i, f (g i) = i).
  Local Instance f_inj : Inj (=) (=) f. Proof. intros x y H. by rewrite <- (Hgf x), <- (Hgf y), H. Qed.
  (** Everything from [c] on keeps its number. *)
  Definition above (c : N) : Prop := forall i, c <= i -> f i = i.
  Lemma above_mono c c' : above c -> c <= c' -> above c'. Proof. intros H Hc i Hi. apply H. lia. Qed.
  Lemma above_lt c i : above c -> i < c -> f i < c.
  Proof. intros H Hi. destruct (decide (f i < c)) as [|Hn]; [done|]. assert (f (f i) = f i) as He by (apply H; lia). apply f_inj in He. lia. Qed.

  (** *** Pending part *)
  Lemma rget s p : sm_get s (rpend f p) = rb f <$> sm_get s p.
  Proof. induction p as [|[k b] p IH]; [done|]. cbn -[N.eqb rb]. by destruct (_ =? _). Qed.
  Lemma rput s b p : sm_put s (rb f b) (rpend f p) = rpend f (sm_put s b p).
  Proof. induction p as [|[k b'] p IH]; [done|]. cbn -[N.eqb N.ltb rb]. destruct (s <? k); [done|]. destruct (s =? k); [done|]. cbn -[rb]. f_equal. exact IH. Qed.
  Lemma rdel s p : sm_del s (rpend f p) = rpend f (sm_del s p).
  Proof. induction p as [|[k b'] p IH]; [done|]. cbn -[N.eqb rb]. destruct (s =? k); [done|]. cbn -[rb]. f_equal. exact IH. Qed.
  Lemma rinsert p pk a wv s : pd_insert (rpend f p) pk (rtpa f a) wv s = (rpend f (pd_insert p pk a wv s).1, (pd_insert p pk a wv s).2).
  Proof.
    unfold pd_insert. rewrite rget. destruct (sm_get s p) as [b|]; cbn [fmap option_fmap option_map].
    - cbn [rb ps_accounts ps_parent]. rewrite lookup_fmap. destruct (ps_accounts b !! pk) as [[a0 w]|]; cbn [fmap option_fmap option_map rp snd].
      + destruct (w <? wv); [|done]. cbn [fst snd]. f_equal. rewrite <- rput. unfold rb. cbn [ps_accounts ps_parent]. rewrite fmap_insert. done.
      + cbn [fst snd]. f_equal. rewrite <- rput. unfold rb. cbn [ps_accounts ps_parent]. rewrite fmap_insert. done.
    - cbn [fst snd]. f_equal. rewrite <- rput. unfold rb. cbn [ps_accounts ps_parent]. rewrite map_fmap_singleton. done.
  Qed.
  Lemma rinfo p si : pd_slot_info (rpend f p) si = rpend f (pd_slot_info p si).
  Proof. unfold pd_slot_info. rewrite rget. destruct (sm_get _ p) as [b|]; cbn [fmap option_fmap option_map]; rewrite <- rput; [done|]. unfold rb. cbn [ps_accounts ps_parent]. by rewrite fmap_empty. Qed.
  Lemma rwalk n : forall p cur acc, fin_walk n (rpend f p) cur (rps f <$> acc) = (rpend f (fin_walk n p cur acc).1, rps f <$> (fin_walk n p cur acc).2).
  Proof.
    induction n as [|n IH]; intros p cur acc; [done|]. cbn [fin_walk]. destruct cur as [s|]; [|done]. rewrite rget. destruct (sm_get s p) as [b|]; cbn [fmap option_fmap option_map]; [|done].
    rewrite rdel, <- IH. cbn [rb ps_accounts ps_parent]. f_equal. rewrite map_fmap_union. f_equal. by rewrite <- !map_fmap_compose.
  Qed.
  Lemma rpop s p : pop_upto s (rpend f p) = rpend f (pop_upto s p).
  Proof. induction p as [|[k b] p IH]; [done|]. cbn -[N.leb rb]. by destruct (_ <=? _). Qed.
  Lemma rlen p : length (rpend f p) = length p. Proof. apply fmap_length. Qed.
  Lemma rfinalize p s : pd_finalize (rpend f p) s = (rpend f (pd_finalize p s).1, rps f <$> (pd_finalize p s).2).
  Proof.
    unfold pd_finalize. rewrite rlen. assert (@empty (gmap pubkey (pacct * N)) _ = rps f <$> (∅ : gmap pubkey (pacct * N))) as He by (by rewrite fmap_empty). rewrite He at 1. rewrite rwalk.
    destruct (fin_walk _ p _ _) as [q m]. cbn [fst snd]. by rewrite rpop.
  Qed.
  Lemma rfill b s pks : forall ret, fill (rb f b) s pks (rret f ret) = rret f (fill b s pks ret).
  Proof.
    induction pks as [|pk pks IH]; intros ret; [by destruct ret|]. destruct ret as [|o ret]; [done|]. unfold rret. rewrite fmap_cons. cbn [fill]. rewrite fmap_cons. f_equal; [|apply IH].
    destruct o as [x|]; cbn [fmap option_fmap option_map]; [done|]. cbn [rb ps_accounts]. rewrite lookup_fmap. by destruct (ps_accounts b !! pk).
  Qed.
  Lemma rfound ret : all_found (rret f ret) = all_found ret.
  Proof. unfold all_found, rret. induction ret as [|o ret IH]; [done|]. rewrite fmap_cons. cbn [forallb]. rewrite IH. by destruct o. Qed.
  Lemma rconf n p pks : forall cur ret, conf_walk n (rpend f p) pks cur (rret f ret) = rret f <$> conf_walk n p pks cur ret.
  Proof.
    induction n as [|n IH]; intros cur ret; [done|]. cbn [conf_walk]. destruct cur as [s|]; [|done]. rewrite rget. destruct (sm_get s p) as [b|]; cbn [fmap option_fmap option_map]; [|done].
    rewrite rfill, rfound. destruct (all_found _); [done|]. rewrite IH. done.
  Qed.
  Lemma rproc n p pks conf l : forall ret, proc_walk n (rpend f p) pks conf (rpend f l) (rret f ret) = rret f <$> proc_walk n p pks conf l ret.
  Proof.
    induction l as [|[s b] l IH]; intros ret; [done|]. cbn [rpend fmap list_fmap fst snd proc_walk]. destruct (conf <? s); [|apply (rconf n p pks (Some conf) ret)].
    rewrite rfill, rfound. destruct (all_found _); [done|]. apply IH.
  Qed.
  Lemma rpdget p pks c conf : pd_get (rpend f p) pks c conf = (l ← pd_get p pks c conf; Done (rret f l)).
  Proof.
    unfold pd_get, pd_get_fuel. rewrite rlen. assert (replicate (length pks) None = rret f (replicate (length pks) None)) as Hr by (unfold rret; by rewrite fmap_replicate).
    assert (reverse (rpend f p) = rpend f (reverse p)) as Hv by (unfold rpend; by rewrite fmap_reverse).
    destruct c; cbn [mbind res_bind]; [| |done].
    - rewrite Hv. rewrite Hr at 1. rewrite rproc. by destruct (proc_walk _ p _ _ _ _).
    - rewrite Hr at 1. rewrite rconf. by destruct (conf_walk _ p _ _ _).
  Qed.
  (** *** Conversion to accounts *)
  Lemma rtoken t s w (mints : gmap N mint_account) : token_to_acct (ren f t) s w (kmap f mints) = token_to_acct t s w mints.
  Proof. unfold token_to_acct. cbn [ren with_mint ta_deleted ta_mint ta_owner ta_amount ta_delegate ta_state ta_native ta_close ta_program ta_extra ta_pubkey]. by rewrite lookup_kmap by apply _. Qed.
  Lemma rtpa_acct a s w (mints : gmap N mint_account) : tpa_to_acct (rtpa f a) s w (kmap f mints) = tpa_to_acct a s w mints.
  Proof. destruct a; try done. apply rtoken. Qed.
  Lemma raccts mints l : to_accts (kmap f mints) ((fun x => (rtpa f x.1.1, x.1.2, x.2)) <$> l) = to_accts mints l.
  Proof. induction l as [|[[a s] w] l IH]; [done|]. rewrite fmap_cons. cbn [to_accts fst snd]. rewrite rtpa_acct, IH. done. Qed.
  Definition rout (o : option (tpa * gmap pubkey N * N)) : option (tpa * gmap pubkey N * N) := match o with Some (ty, ix, ctr) => Some (rtpa f ty, f <$> ix, ctr) | None => None end.
  Lemma rtype E a (ix : gmap pubkey N) ctr : f ctr = ctr -> account_type E a (f <$> ix) ctr = (o ← account_type E a ix ctr; Done (rout o)).
  Proof.
    intros Hc. unfold account_type. destruct (_ || _); [done|].
    assert (forall s, mint_index (sa_mint s) (f <$> ix) ctr = (f (mint_index (sa_mint s) ix ctr).1.1, f <$> (mint_index (sa_mint s) ix ctr).1.2, (mint_index (sa_mint s) ix ctr).2)) as Hm.
    { intros s. unfold mint_index. rewrite lookup_fmap. destruct (ix !! sa_mint s); cbn [fmap option_fmap option_map fst snd]; [done|]. by rewrite fmap_insert, Hc. }
    destruct (d_owner a =? spl_2022_id), (data_bytes E (d_data a)) as [v|]; cbn [mbind res_bind]; try done;
      destruct (unpack_account v) as [s|], (unpack_mint v), (unpack_multisig v), (v !! 165%nat); try rewrite (Hm s); try destruct (mint_index (sa_mint s) ix ctr) as [[i ix'] ctr'];
      cbn [unwrap mbind res_bind fst snd]; repeat case_match; try done.
  Qed.

  (** *** The table *)
  Definition mlow (a : tpa) : Prop := match a with TPToken t => ta_mint t < 2 ^ 32 /\ f (ta_mint t) < 2 ^ 32 | _ => True end.
  Lemma tpa_ok_mlow c a : tpa_ok c a -> above c -> c <= 2 ^ 32 -> mlow a.
  Proof. destruct a as [t| | |]; try done. intros (_ & [Hm _] & _) Ha Hc. pose proof (above_lt c (ta_mint t) Ha Hm). split; (eapply N.lt_le_trans; [|exact Hc]); done. Qed.
  Lemma vrel_bytes t : mlow (TPToken t) -> vrel f (to_bytes t) (to_bytes (ren f t)).
  Proof.
    intros [H1 H2]. split; [by rewrite !peek_to|]. exists (truncated t), (truncated (ren f t)). rewrite !from_to. split_and!; [done|done|done|]. intros _. unfold ren, truncated, with_mint.
    cbn [ta_deleted ta_mint ta_owner ta_amount ta_delegate ta_state ta_native ta_close ta_program ta_extra ta_pubkey]. rewrite (N.mod_small (ta_mint t)) by done. by rewrite (N.mod_small (f (ta_mint t))) by done.
  Qed.
  Lemma vrel_deleted : vrel f (to_bytes deleted_account) (to_bytes deleted_account).
  Proof. split; [done|]. exists (truncated deleted_account), (truncated deleted_account). rewrite !from_to. do 3 (split; [done|]). cbn. intros H. discriminate H. Qed.
  Lemma rfind l l' pk ixs : Forall2 (vrel f) l l' -> find_pk l' pk ixs = find_pk l pk ixs.
  Proof.
    intros H. induction ixs as [|i ixs IH]; [done|]. cbn [find_pk]. pose proof (proj1 (Forall2_lookup _ _ _) H i) as Hi. inversion Hi as [x y [Hp _] Hx Hy|Hx Hy]; cbn [unwrap mbind res_bind]; [|done].
    rewrite <- Hp, IH. done.
  Qed.
  Lemma rcontains tb tb' pk : tbrel f tb tb' -> tb_contains tb' pk = tb_contains tb pk.
  Proof. intros [H1 H2]. unfold tb_contains. rewrite H1. destruct (_ !! _) as [ixs|]; [|done]. by rewrite (rfind _ _ _ _ H2). Qed.
  Lemma rsave tb tb' t tb1 i b : tbrel f tb tb' -> mlow (TPToken t) -> tb_save tb t = Done (tb1, i, b) -> exists tb1', tb_save tb' (ren f t) = Done (tb1', i, b) /\ tbrel f tb1 tb1'.
  Proof.
    intros [H1 H2] Hm. unfold tb_save. change (ta_pubkey (ren f t)) with (ta_pubkey t). rewrite H1, (Forall2_length _ _ _ H2). pose proof (vrel_bytes t Hm) as Hv. destruct (tb_index tb !! _) as [ixs|].
    - rewrite (rfind _ _ _ _ H2). destruct (find_pk _ _ _) as [[j|]|]; cbn [mbind res_bind]; [| |done]; intros [= <- <- <-]; eexists; (split; [done|]); split; cbn [tb_index tb_accounts]; try done.
      + by apply Forall2_insert.
      + apply Forall2_app; [done|]. econstructor; [exact Hv|constructor].
    - intros [= <- <- <-]. eexists. split; [done|]. split; cbn [tb_index tb_accounts]; [done|]. apply Forall2_app; [done|]. econstructor; [exact Hv|constructor].
  Qed.
  Lemma rdelete tb tb' pk tb1 : tbrel f tb tb' -> tb_delete tb pk = Done tb1 -> exists tb1', tb_delete tb' pk = Done tb1' /\ tbrel f tb1 tb1'.
  Proof.
    intros [H1 H2]. unfold tb_delete. rewrite H1. destruct (tb_index tb !! _) as [ixs|]; [|intros [= <-]; by exists tb'].
    rewrite (rfind _ _ _ _ H2). destruct (find_pk _ _ _) as [[j|]|]; cbn [mbind res_bind]; [| |done]; intros [= <-]; eexists; (split; [done|]); split; cbn [tb_index tb_accounts]; try done.
    apply Forall2_insert; [done|apply vrel_deleted].
  Qed.
  Lemma rpush k i (m : gmap N (list nat)) : push_at (f k) i (kmap f m) = kmap f (push_at k i m).
  Proof. unfold push_at. by rewrite lookup_kmap, kmap_insert by apply _. Qed.

  (** *** Calls *)
  Lemma radd ts ts' a ts1 : renumbered f ts ts' -> above (ts_ctr ts) -> mlow a -> add_finalized ts a = Done ts1 -> exists ts1', add_finalized ts' (rtpa f a) = Done ts1' /\ renumbered f ts1 ts1'.
  Proof.
    intros [] Ha Hm. destruct a as [t|m|m pk|pk]; cbn [add_finalized rtpa].
    - unfold add_token. destruct (tb_save (ts_table ts) t) as [[[tb i] b]|] eqn:Hs; cbn [mbind res_bind]; [|done]. intros [= <-]. destruct (rsave _ _ _ _ _ _ rn_table0 Hm Hs) as (tb1' & Hs' & Hr). rewrite Hs'.
      cbn [mbind res_bind]. eexists. split; [done|]. destruct b; constructor; cbn [set_table ts_mints ts_mint_ix ts_multi ts_by_mint ts_by_owner ts_table ts_pend ts_conf ts_fin ts_ctr]; try done.
      + rewrite rn_bm0. apply (rpush (ta_mint t)).
      + by rewrite rn_bo0.
    - rewrite rn_ix0, lookup_fmap. destruct (ts_mint_ix ts !! ma_pubkey m) as [i|]; cbn [fmap option_fmap option_map]; intros [= <-]; eexists; (split; [done|]); constructor; cbn; try done.
      + rewrite rn_mints0. by rewrite kmap_insert by apply _.
      + rewrite rn_mints0, rn_ctr0, kmap_insert by apply _. by rewrite (Ha (ts_ctr ts)) by lia.
      + rewrite rn_ctr0. rewrite fmap_insert. by rewrite (Ha (ts_ctr ts)) by lia.
      + by rewrite rn_ctr0.
    - intros [= <-]. eexists. split; [done|]. constructor; cbn; try done. by rewrite rn_multi0.
    - rewrite rn_ix0, lookup_fmap. destruct (ts_mint_ix ts !! pk) as [i|]; cbn [fmap option_fmap option_map].
      + intros [= <-]. eexists. split; [done|]. constructor; cbn; try done.
        * rewrite rn_mints0. by rewrite kmap_delete by apply _.
        * by rewrite fmap_delete.
        * rewrite rn_bm0. by rewrite kmap_delete by apply _.
      + destruct (tb_delete (ts_table ts) pk) as [tb|] eqn:Hd; cbn [mbind res_bind]; [|done]. intros [= <-]. destruct (rdelete _ _ _ _ rn_table0 Hd) as (tb1' & Hd' & Hr). rewrite Hd'. cbn [mbind res_bind].
        eexists. split; [done|]. constructor; cbn; try done.
  Qed.
  Lemma radds l : forall ts ts' ts1, renumbered f ts ts' -> above (ts_ctr ts) -> Forall mlow l -> add_all ts l = Done ts1 -> exists ts1', add_all ts' (rtpa f <$> l) = Done ts1' /\ renumbered f ts1 ts1'.
  Proof.
    induction l as [|a l IH]; intros ts ts' ts1 Hr Ha Hl; [intros [= <-]; by exists ts'|]. apply Forall_cons in Hl as [Hm Hl]. cbn [add_all]. destruct (add_finalized ts a) as [t|] eqn:H1; cbn [mbind res_bind]; [|done].
    intros H. destruct (radd _ _ _ _ Hr Ha Hm H1) as (t' & H1' & Hr1). rewrite fmap_cons. cbn [add_all]. rewrite H1'. cbn [mbind res_bind]. apply (IH t t' ts1 Hr1); [|done..].
    apply (above_mono _ _ Ha). by apply add_finalized_ctr in H1.
  Qed.
  Lemma ris ts ts' a : renumbered f ts ts' -> is_token ts' a = is_token ts a.
  Proof. intros []. unfold is_token. rewrite rn_ix0, rn_multi0, (rcontains _ _ _ rn_table0). rewrite lookup_fmap. by destruct (ts_mint_ix ts !! _). Qed.
  Lemma rset_ix ts ts' ix c : renumbered f ts ts' -> renumbered f (set_ix ts ix c) (set_ix ts' (f <$> ix) c).
  Proof. intros []. by constructor. Qed.
  Lemma rset_pend ts ts' p : renumbered f ts ts' -> renumbered f (set_pend ts p) (set_pend ts' (rpend f p)).
  Proof. intros []. by constructor. Qed.
  Lemma rset_conf ts ts' c : renumbered f ts ts' -> renumbered f (set_conf ts c) (set_conf ts' c).
  Proof. intros []. by constructor. Qed.
  Lemma rset_fin ts ts' c : renumbered f ts ts' -> renumbered f (set_fin ts c) (set_fin ts' c).
  Proof. intros []. by constructor. Qed.
  Lemma rupdate E ts ts' a c ts1 b : renumbered f ts ts' -> above (ts_ctr ts) -> tinv ts -> d_pubkey a < 2 ^ 256 -> ts_update E ts a c = Done (ts1, b) -> ts_ctr ts1 <= 2 ^ 32 ->
    exists ts1', ts_update E ts' a c = Done (ts1', b) /\ renumbered f ts1 ts1'.
  Proof.
    intros Hr Ha Hi Hp H Hc. pose proof (step_ctr E (Lz4x (fun _ => None) (fun _ _ => None)) ts (TUpdate a c) ts1) as Hmono. cbn [ts_step] in Hmono. rewrite H in Hmono. specialize (Hmono eq_refl Hp).
    revert H. unfold ts_update. rewrite (ris _ _ _ Hr). destruct (is_token ts a) as [k|]; cbn [mbind res_bind]; [|done]. destruct k; [|intros [= <- <-]; eauto].
    rewrite (rn_ix _ _ _ Hr), (rn_ctr _ _ _ Hr), rtype by (apply Ha; lia). destruct (account_type E a (ts_mint_ix ts) (ts_ctr ts)) as [[[[ty ix] ctr]|]|] eqn:Ht; cbn [mbind res_bind rout]; [|intros [= <- <-]; eauto|done].
    destruct (accepted_ok _ _ _ _ _ _ _ Ht Hp (ti_ix _ Hi)) as (_ & Hle & Hty & _). pose proof (rset_ix _ _ ix ctr Hr) as Hr1.
    assert (forall p b0, pd_insert (ts_pend (set_ix ts ix ctr)) (d_pubkey a) ty (d_wv a) (d_slot a) = (p, b0) -> pd_insert (ts_pend (set_ix ts' (f <$> ix) ctr)) (d_pubkey a) (rtpa f ty) (d_wv a) (d_slot a) = (rpend f p, b0)) as Hpd.
    { intros p b0 He. rewrite (rn_pend _ _ _ Hr1), rinsert, He. done. }
    destruct c.
    - destruct (pd_insert (ts_pend (set_ix ts ix ctr)) _ _ _ _) as [p b0] eqn:He. rewrite (Hpd _ _ eq_refl). intros [= <- <-]. eexists. split; [done|]. by apply rset_pend.
    - destruct (pd_insert (ts_pend (set_ix ts ix ctr)) _ _ _ _) as [p b0] eqn:He. rewrite (Hpd _ _ eq_refl). intros [= <- <-]. eexists. split; [done|]. by apply rset_pend.
    - destruct (add_finalized _ ty) as [t|] eqn:Had; cbn [mbind res_bind]; [|done]. intros [= <- <-]. pose proof (add_finalized_ctr _ _ _ Had) as Hca. cbn [ts_ctr set_ix] in Hca.
      destruct (radd _ _ _ _ Hr1 (above_mono _ _ Ha Hle) (tpa_ok_mlow _ _ Hty (above_mono _ _ Ha Hle) ltac:(lia)) Had) as (t' & Had' & Hr2). rewrite Had'. cbn [mbind res_bind]. eauto.
  Qed.
  Lemma rinit E ts ts' a ts1 : renumbered f ts ts' -> above (ts_ctr ts) -> tinv ts -> d_pubkey a < 2 ^ 256 -> ts_init E ts a = Done ts1 -> ts_ctr ts1 <= 2 ^ 32 ->
    exists ts1', ts_init E ts' a = Done ts1' /\ renumbered f ts1 ts1'.
  Proof.
    intros Hr Ha Hi Hp H Hc. destruct (rupdate E ts ts' a Finalized ts1 (match is_token ts a with Done true => match account_type E a (ts_mint_ix ts) (ts_ctr ts) with Done (Some _) => true | _ => false end | _ => false end) Hr Ha Hi Hp) as (t & Ht & Hr1); [|done|].
    - revert H. unfold ts_init, ts_update. destruct (is_token ts a) as [[]|]; cbn [mbind res_bind]; [|by intros [= <-]|done]. destruct (account_type _ _ _ _) as [[[[ty ix] ctr]|]|]; cbn [mbind res_bind]; [|by intros [= <-]|done].
      intros ->. done.
    - exists t. split; [|done]. revert Ht. unfold ts_init, ts_update. destruct (is_token ts' a) as [[]|]; cbn [mbind res_bind]; [|by intros [= <-]|done]. destruct (account_type E a (ts_mint_ix ts') _) as [[[[ty ix] ctr]|]|]; cbn [mbind res_bind]; [|by intros [= <-]|done].
      destruct (add_finalized _ _); cbn [mbind res_bind]; [|done]. by intros [= <- _].
  Qed.
  Lemma to_accts_perm mints l1 l2 : l1 ≡ₚ l2 -> forall r, to_accts mints l1 = Done r -> exists r', to_accts mints l2 = Done r' /\ r ≡ₚ r'.
  Proof.
    induction 1 as [|[[a s] w] l l' H IH|[[a s] w] [[a' s'] w'] l|l l' l'' H1 IH1 H2 IH2]; intros r.
    - eauto.
    - cbn [to_accts]. destruct (tpa_to_acct a s w mints) as [o|]; cbn [mbind res_bind]; [|done]. destruct (to_accts mints l) as [r0|]; cbn [mbind res_bind]; [|done]. intros [= <-]. destruct (IH _ eq_refl) as (r' & -> & Hp).
      cbn [mbind res_bind]. eexists. split; [done|]. destruct o; [by constructor|done].
    - cbn [to_accts]. destruct (tpa_to_acct a s w mints) as [o|], (tpa_to_acct a' s' w' mints) as [o'|]; cbn [mbind res_bind]; try done.
      destruct (to_accts mints l) as [r0|]; cbn [mbind res_bind]; [|done]. intros [= <-]. eexists. split; [done|]. destruct o, o'; try done. constructor.
    - intros Hr. destruct (IH1 _ Hr) as (r1 & Hr1 & Hp1). destruct (IH2 _ Hr1) as (r2 & Hr2 & Hp2). exists r2. split; [done|]. by rewrite Hp1.
  Qed.
  Lemma rforslot p si mints q l : pd_for_slot p si mints = Done (q, l) -> exists l', pd_for_slot (rpend f p) si (kmap f mints) = Done (rpend f q, l') /\ l ≡ₚ l'.
  Proof.
    unfold pd_for_slot. rewrite rget. destruct (sm_get (si_slot si) p) as [b|]; cbn [fmap option_fmap option_map]; [|intros [= <- <-]; rewrite rinfo; eauto].
    destruct (to_accts mints _) as [r|] eqn:Ht; cbn [mbind res_bind]; [|done]. intros [= <- <-]. rewrite <- raccts in Ht.
    eapply to_accts_perm in Ht as (r' & Hr' & Hp); [exists r'; rewrite Hr'; cbn [mbind res_bind]; done|]. cbn [rb ps_accounts]. rewrite map_to_list_fmap. rewrite <- !list_fmap_compose. apply Permutation_refl'.
    apply list_fmap_ext. intros i [k [a w]] _. done.
  Qed.
  Definition rord (ord : drain) : drain := fun m => (fun x => (x.1, rps f x.2)) <$> ord (rps g <$> m).
  Definition rop (o : tsop) : tsop := match o with TSlot ord si c => TSlot (rord ord) si c | _ => o end.
  Lemma rps_gf x : rps g (rps f x) = x.
  Proof. destruct x as [[[t| | |] w] s]; try done. unfold rps, rp, rtpa, ren. cbn [fst snd]. destruct t. cbn. by rewrite Hgf. Qed.
  Lemma rps_fg x : rps f (rps g x) = x.
  Proof. destruct x as [[[t| | |] w] s]; try done. unfold rps, rp, rtpa, ren. cbn [fst snd]. destruct t. cbn. by rewrite Hfg. Qed.
  Lemma rord_at ord m : rord ord (rps f <$> m) = (fun x => (x.1, rps f x.2)) <$> ord m.
  Proof. unfold rord. f_equal. f_equal. rewrite <- map_fmap_compose. transitivity (id <$> m); [|apply map_fmap_id]. apply map_fmap_ext. intros i x _. apply rps_gf. Qed.
  Lemma rop_ok o : op_ok o -> op_ok (rop o).
  Proof.
    destruct o as [| |ord si c|]; try done. cbn [rop op_ok]. intros H m. unfold rord. rewrite (H (rps g <$> m)), map_to_list_fmap, <- list_fmap_compose. apply Permutation_refl'. transitivity (id <$> map_to_list m); [|apply list_fmap_id].
    apply list_fmap_ext. intros i [k x] _. cbn. by rewrite rps_fg.
  Qed.
  Lemma rslot ord ts ts' si c ts1 l : renumbered f ts ts' -> above (ts_ctr ts) -> tinv ts -> op_ok (TSlot ord si c) -> ts_slot ord ts si c = Done (ts1, l) -> ts_ctr ts1 <= 2 ^ 32 ->
    exists ts1' l', ts_slot (rord ord) ts' si c = Done (ts1', l') /\ l ≡ₚ l' /\ renumbered f ts1 ts1'.
  Proof.
    intros Hr Ha Hi Hok. destruct c; cbn [ts_slot].
    - intros [= <- <-] _. rewrite (rn_pend _ _ _ Hr), rinfo. eexists _, _. split; [done|]. split; [done|]. by apply rset_pend.
    - set (t0 := if ts_conf ts <? si_slot si then _ else _). set (t0' := if ts_conf ts' <? si_slot si then _ else _).
      assert (renumbered f t0 t0') as Hr0.
      { unfold t0, t0'. rewrite (rn_conf _ _ _ Hr). destruct (_ <? _); [|done]. rewrite (rn_pend _ _ _ Hr), rinfo. by apply rset_pend, rset_conf. }
      destruct (pd_for_slot (ts_pend t0) si (ts_mints t0)) as [[p r]|] eqn:Hf; cbn [mbind res_bind]; [|done]. intros [= <- <-] _. destruct (rforslot _ _ _ _ _ Hf) as (r' & Hf' & Hp).
      rewrite (rn_pend _ _ _ Hr0), (rn_mints _ _ _ Hr0), Hf'. cbn [mbind res_bind]. eexists _, _. split; [done|]. split; [done|]. by apply rset_pend.
    - set (t0 := if ts_fin ts <? si_slot si then _ else _). set (t0' := if ts_fin ts' <? si_slot si then _ else _).
      assert (renumbered f t0 t0') as Hr0.
      { unfold t0, t0'. rewrite (rn_fin _ _ _ Hr). destruct (_ <? _); [|done]. rewrite (rn_pend _ _ _ Hr), rinfo. by apply rset_fin, rset_pend. }
      assert (tinv t0 /\ ts_ctr t0 = ts_ctr ts) as [Hi0 Hc0].
      { unfold t0. destruct (_ <? _); [|done]. split; [|done]. apply tinv_set_fin, tinv_set_pend; [done|apply pd_slot_info_sorted, ti_sorted, Hi|]. intros s pk v Hv. apply (slot_info_version _ _ _ _ _ (ti_sorted _ Hi)) in Hv. by apply (ti_pend _ Hi _ _ _) in Hv. }
      rewrite (rn_pend _ _ _ Hr0), rfinalize. destruct (finalize_versions (ts_pend t0) (si_slot si) (ti_sorted _ Hi0)) as (_ & _ & Hv2). destruct (pd_finalize (ts_pend t0) (si_slot si)) as [p m]. cbn [fst snd] in *.
      rewrite rord_at. pose proof (rset_pend _ _ p Hr0) as Hr1.
      destruct (to_accts (ts_mints (set_pend t0 p)) _) as [r|] eqn:Ht; cbn [mbind res_bind]; [|done]. destruct (add_all _ _) as [t1|] eqn:Had; cbn [mbind res_bind]; [|done]. intros [= <- <-] Hc.
      rewrite (rn_mints _ _ _ Hr1). rewrite <- raccts in Ht. pose proof (add_all_ctr _ _ _ Had) as Hcm. cbn [ts_ctr set_pend] in Hcm.
      assert (forall L : list (pubkey * (pacct * N)), (fun '((ty, wv), slot) => (ty, slot, wv)) <$> ((fun x : pubkey * (pacct * N) => x.2) <$> ((fun x => (x.1, rps f x.2)) <$> L)) =
        (fun x => (rtpa f x.1.1, x.1.2, x.2)) <$> ((fun '((ty, wv), slot) => (ty, slot, wv)) <$> ((fun x : pubkey * (pacct * N) => x.2) <$> L))) as HL1.
      { intros L. rewrite <- !list_fmap_compose. apply list_fmap_ext. by intros i [k [[a w] s]] _. }
      assert (forall L : list (pubkey * (pacct * N)), (fun x : pacct * N => x.1.1) <$> ((fun x : pubkey * (pacct * N) => x.2) <$> ((fun x => (x.1, rps f x.2)) <$> L)) =
        rtpa f <$> ((fun x : pacct * N => x.1.1) <$> ((fun x : pubkey * (pacct * N) => x.2) <$> L))) as HL2.
      { intros L. rewrite <- !list_fmap_compose. apply list_fmap_ext. by intros i [k [[a w] s]] _. }
      rewrite HL1, HL2, Ht. cbn [mbind res_bind]. eapply radds in Had as (t1' & Had' & Hr2); [|exact Hr1|cbn [ts_ctr set_pend]; by rewrite Hc0|].
      + rewrite Had'. cbn [mbind res_bind]. eexists _, _. split; [done|]. done.
      + apply Forall_forall. intros x Hx. apply elem_of_list_fmap in Hx as ([v s] & -> & Hx). apply elem_of_list_fmap in Hx as ([pk [v' s']] & [= <- <-] & Hx).
        rewrite (Hok m) in Hx. apply elem_of_map_to_list in Hx. apply Hv2 in Hx. apply (ti_pend _ Hi0 s pk) in Hx as [Hx _]. cbn [fst]. apply (tpa_ok_mlow _ _ Hx); [by rewrite Hc0|lia].
  Qed.
  Lemma rhear E X ts ts' o ts1 x : renumbered f ts ts' -> above (ts_ctr ts) -> tinv ts -> op_ok o -> hear E X ts o = Done (ts1, x) -> ts_ctr ts1 <= 2 ^ 32 ->
    exists ts1' x', hear E X ts' (rop o) = Done (ts1', x') /\ same_answer x x' /\ renumbered f ts1 ts1'.
  Proof.
    intros Hr Ha Hi Hok H Hc. destruct o as [a c|a|ord si c|p b]; cbn [hear rop] in *; [| | |done].
    - destruct (ts_update E ts a c) as [[t r]|] eqn:Hu; cbn [mbind res_bind] in H; [|done]. injection H as <- <-. destruct (rupdate _ _ _ _ _ _ _ Hr Ha Hi Hok Hu Hc) as (t' & -> & Hr1). cbn [mbind res_bind]. eexists _, _. done.
    - destruct (ts_init E ts a) as [t|] eqn:Hu; cbn [mbind res_bind] in H; [|done]. injection H as <- <-. destruct (rinit _ _ _ _ _ Hr Ha Hi Hok Hu Hc) as (t' & -> & Hr1). cbn [mbind res_bind]. eexists _, _. done.
    - destruct (ts_slot ord ts si c) as [[t r]|] eqn:Hu; cbn [mbind res_bind] in H; [|done]. injection H as <- <-. destruct (rslot _ _ _ _ _ _ _ Hr Ha Hi Hok Hu Hc) as (t' & r' & -> & Hp & Hr1). cbn [mbind res_bind]. eexists _, _. done.
  Qed.
  Lemma hear_step E X ts o ts1 x : hear E X ts o = Done (ts1, x) -> ts_step E X ts o = Done ts1.
  Proof.
    destruct o as [a c|a|ord si c|p b]; cbn [hear ts_step].
    - destruct (ts_update _ _ _ _) as [[t r]|]; [|done]. cbn [mbind res_bind]. congruence.
    - destruct (ts_init _ _ _) as [t|]; [|done]. cbn [mbind res_bind]. congruence.
    - destruct (ts_slot _ _ _ _) as [[t r]|]; [|done]. cbn [mbind res_bind]. congruence.
    - destruct (ts_load _ _ _ _) as [[t r]|]; [|done]. cbn [mbind res_bind]. congruence.
  Qed.
  Lemma hears_run E X l : forall ts ts1 x, hears E X ts l = Done (ts1, x) -> ts_run E X ts l = Done ts1.
  Proof.
    induction l as [|o l IH]; intros ts ts1 x; cbn [hears ts_run]; [congruence|]. destruct (hear E X ts o) as [[t a]|] eqn:H; cbn [mbind res_bind]; [|done]. apply hear_step in H. rewrite H. cbn [mbind res_bind].
    destruct (hears E X t l) as [[t' r]|] eqn:H'; cbn [mbind res_bind]; [|done]. intros [= <- <-]. by apply IH in H'.
  Qed.
  Lemma rhears E X l : forall ts ts' ts1 x, renumbered f ts ts' -> above (ts_ctr ts) -> tinv ts -> ops_ok l -> hears E X ts l = Done (ts1, x) -> ts_ctr ts1 <= 2 ^ 32 ->
    exists ts1' x', hears E X ts' (rop <$> l) = Done (ts1', x') /\ Forall2 same_answer x x' /\ renumbered f ts1 ts1'.
  Proof.
    induction l as [|o l IH]; intros ts ts' ts1 x Hr Ha Hi Hok H Hc; cbn [hears] in H; [injection H as <- <-; exists ts', []; by split_and!|]. apply Forall_cons in Hok as [Ho Hok].
    destruct (hear E X ts o) as [[t a]|] eqn:H1; cbn [mbind res_bind] in H; [|done]. destruct (hears E X t l) as [[t' r]|] eqn:H2; cbn [mbind res_bind] in H; [|done]. injection H as <- <-.
    pose proof (run_ctr _ _ _ _ _ (hears_run _ _ _ _ _ _ H2) Hok) as Hc2. pose proof (step_ctr _ _ _ _ _ (hear_step _ _ _ _ _ _ H1) Ho) as Hc1.
    destruct (rhear _ _ _ _ _ _ _ Hr Ha Hi Ho H1 ltac:(lia)) as (u & a' & Hu & Hsa & Hr1).
    destruct (IH _ u _ _ Hr1 (above_mono _ _ Ha Hc1) ltac:(eapply step_inv; [exact (hear_step _ _ _ _ _ _ H1)|done..|lia]) Hok H2 Hc) as (u' & r' & Hu' & Hsr & Hr2).
    rewrite fmap_cons. cbn [hears]. rewrite Hu. cbn [mbind res_bind]. rewrite Hu'. cbn [mbind res_bind]. eexists _, _. split; [done|]. split; [by constructor|done].
  Qed.

  (** *** Reads and queries *)
  Definition trel (t t' : token_account) : Prop := ta_deleted t = ta_deleted t' /\ (ta_deleted t = false -> t' = ren f t).
  Lemma trel_acct t t' s w (mints : gmap N mint_account) : trel t t' -> token_to_acct t' s w (kmap f mints) = token_to_acct t s w mints.
  Proof. intros [H1 H2]. destruct (ta_deleted t) eqn:Hd; [unfold token_to_acct; by rewrite Hd, <- H1|]. rewrite H2 by done. apply rtoken. Qed.
  Lemma rtbget tb tb' pk : tbrel f tb tb' -> match tb_get tb pk, tb_get tb' pk with Done None, Done None | Panic, Panic => True | Done (Some t), Done (Some t') => trel t t' | _, _ => False end.
  Proof.
    intros [H1 H2]. unfold tb_get. rewrite H1. destruct (tb_index tb !! _) as [ixs|]; [|done]. rewrite (rfind _ _ _ _ H2). destruct (find_pk _ _ _) as [[i|]|]; cbn [mbind res_bind]; [|done..].
    pose proof (proj1 (Forall2_lookup _ _ _) H2 i) as Hi. inversion Hi as [x y (_ & t & t' & Ht & Ht' & Hr) Hx Hy|Hx Hy]; cbn [unwrap mbind res_bind]; [|done]. rewrite Ht, Ht'. done.
  Qed.
  Lemma rfin_get ts ts' pk : renumbered f ts ts' -> get_fin ts' pk = get_fin ts pk.
  Proof.
    intros Hr. unfold get_fin. rewrite (rn_multi _ _ _ Hr), (rn_fin _ _ _ Hr), (rn_ix _ _ _ Hr), (rn_mints _ _ _ Hr). destruct (ts_multi ts !! pk); [done|]. rewrite lookup_fmap.
    destruct (ts_mint_ix ts !! pk) as [i|]; cbn [fmap option_fmap option_map]; [by rewrite lookup_kmap by apply _|]. pose proof (rtbget _ _ pk (rn_table _ _ _ Hr)) as Ht.
    destruct (tb_get (ts_table ts) pk) as [[t|]|], (tb_get (ts_table ts') pk) as [[t'|]|]; try done. cbn [mbind res_bind]. rewrite (trel_acct _ _ _ _ _ Ht). destruct Ht as [<- _]. done.
  Qed.
  Lemma rread ts ts' pk c : renumbered f ts ts' -> ts_get ts' pk c = ts_get ts pk c.
  Proof.
    intros Hr. unfold ts_get. rewrite (rfin_get _ _ _ Hr), (rn_pend _ _ _ Hr), (rn_conf _ _ _ Hr), (rn_mints _ _ _ Hr), rpdget. destruct c; [| |done].
    - destruct (pd_get _ _ _ _) as [l|]; cbn [mbind res_bind]; [|done]. destruct l as [|[[[a w] s]|] l]; cbn; try done. by rewrite rtpa_acct.
    - destruct (pd_get _ _ _ _) as [l|]; cbn [mbind res_bind]; [|done]. destruct l as [|[[[a w] s]|] l]; cbn; try done. by rewrite rtpa_acct.
  Qed.
  Lemma rall l l' ixs : Forall2 (vrel f) l l' -> exists r r', from_all l ixs = Done r /\ from_all l' ixs = Done r' /\ Forall2 trel r r'.
  Proof.
    intros H. induction ixs as [|i ixs (r & r' & IH1 & IH2 & IH3)]; [by exists [], []|]. cbn [from_all]. pose proof (proj1 (Forall2_lookup _ _ _) H i) as Hi.
    inversion Hi as [x y (_ & t & t' & Ht & Ht' & Hr) Hx Hy|Hx Hy]; [|eauto]. rewrite Ht, Ht', IH1, IH2. cbn [mbind res_bind]. eexists _, _. split; [done|]. split; [done|]. by constructor.
  Qed.
  Lemma rtokens ts ts' l l' (P Q : token_account -> bool) : renumbered f ts ts' -> Forall2 trel l l' -> (forall t, Q (ren f t) = P t) ->
    tokens_to_accts ts' (filter (fun t => Q t = true) l') = tokens_to_accts ts (filter (fun t => P t = true) l).
  Proof.
    intros Hr Hl HPQ. induction Hl as [|t t' l l' Ht Hl IH]; [done|]. rewrite !filter_cons.
    assert (forall X, tokens_to_accts X (filter (fun t => Q t = true) l') = Panic \/ exists r, tokens_to_accts X (filter (fun t => Q t = true) l') = Done r) as _ by (intros X; destruct (tokens_to_accts X _); eauto).
    destruct (ta_deleted t) eqn:Hd.
    - assert (forall X s w u, ta_deleted u = true -> token_to_acct u s w X = Done None) as Hnone by (intros X s w u Hu; unfold token_to_acct; by rewrite Hu). assert (ta_deleted t' = true) as Hd' by (by rewrite <- (proj1 Ht)).
      assert (forall X (b : Prop) (D : Decision b) L u, ta_deleted u = true -> tokens_to_accts X (if decide b then u :: L else L) = tokens_to_accts X L) as Hskip.
      { intros X b D L u Hu. destruct (decide b); [|done]. cbn [tokens_to_accts]. rewrite Hnone by done. cbn [mbind res_bind]. by destruct (tokens_to_accts X L). }
      by rewrite !Hskip.
    - destruct Ht as [_ Ht]. rewrite (Ht Hd). rewrite (HPQ t). destruct (decide (P t = true)); [|done]. cbn [tokens_to_accts]. rewrite IH, (rn_fin _ _ _ Hr), (rn_mints _ _ _ Hr), rtoken. done.
  Qed.
  Lemma filter_all {A} (l : list A) : filter (fun _ => true = true) l = l.
  Proof. induction l as [|x l IH]; [done|]. rewrite filter_cons_True by done. by rewrite IH. Qed.
  Definition by_owner_or_mint (p : pubkey) (fl : option (list cond)) : Prop := match fl with None => True | Some cs => owner_mint_filter p cs <> (None, None) end.
  Lemma rgpa_fin E ts ts' p fl : renumbered f ts ts' -> by_owner_or_mint p fl -> gpa_fin E ts' p fl = gpa_fin E ts p fl.
  Proof.
    intros Hr. unfold gpa_fin. destruct fl as [cs|]; [|done]. cbn [by_owner_or_mint]. destruct (owner_mint_filter p cs) as [[o|] mint]; intros Hq.
    - rewrite (rn_ix _ _ _ Hr), (rn_bo _ _ _ Hr).
      assert (forall mi, match ts_by_owner ts !! prefix4 o with Some ixs => l ← tb_by_index (ts_table ts') (list_to_set ixs); r ← tokens_to_accts ts' (filter (fun t => keep_token o (f <$> mi) t = true) l); Done (ROk r) | None => Done (@ROk (list acct) []) end =
        match ts_by_owner ts !! prefix4 o with Some ixs => l ← tb_by_index (ts_table ts) (list_to_set ixs); r ← tokens_to_accts ts (filter (fun t => keep_token o mi t = true) l); Done (ROk r) | None => Done (ROk []) end) as Hrest.
      { intros mi. destruct (ts_by_owner ts !! prefix4 o) as [ixs|]; [|done]. unfold tb_by_index. destruct (rall _ _ (elements (list_to_set ixs : gset nat)) (proj2 (rn_table _ _ _ Hr))) as (r & r' & -> & -> & Hrr). cbn [mbind res_bind].
        rewrite (rtokens ts ts' r r' (keep_token o mi) (keep_token o (f <$> mi)) Hr Hrr); [done|]. intros t. destruct mi as [i|]; cbn [fmap option_fmap option_map keep_token]; [|done]. change (ta_owner (ren f t)) with (ta_owner t). f_equal.
        cbn [ren with_mint ta_mint]. apply eq_true_iff_eq. rewrite !N.eqb_eq. split; [apply f_inj|by intros ->]. }
      destruct mint as [m|]; cbn [mbind res_bind]; [|apply (Hrest None)]. rewrite lookup_fmap. destruct (ts_mint_ix ts !! m) as [i|]; cbn [fmap option_fmap option_map unwrap mbind res_bind]; [|done]. apply (Hrest (Some i)).
    - destruct mint as [m|]; [|done]. rewrite (rn_ix _ _ _ Hr), lookup_fmap. destruct (ts_mint_ix ts !! m) as [i|]; cbn [fmap option_fmap option_map]; [|done]. rewrite (rn_bm _ _ _ Hr), lookup_kmap by apply _.
      destruct (ts_by_mint ts !! i) as [ixs|]; [|done]. unfold tb_by_index. destruct (rall _ _ (elements (list_to_set ixs : gset nat)) (proj2 (rn_table _ _ _ Hr))) as (r & r' & -> & -> & Hrr). cbn [mbind res_bind].
      pose proof (rtokens ts ts' r r' (fun _ => true) (fun _ => true) Hr Hrr (fun _ => eq_refl)) as He. rewrite !filter_all in He. by rewrite He.
  Qed.
  Lemma roverlay mints l : forall ps, overlay (kmap f mints) l (rret f ps) = overlay mints l ps.
  Proof.
    induction l as [|a l IH]; intros ps; [by destruct ps|]. destruct ps as [|o ps]; [done|]. unfold rret. rewrite fmap_cons. cbn [overlay]. change (fmap _ ps) with (rret f ps). rewrite IH.
    destruct o as [[[ty w] s]|]; cbn [fmap option_fmap option_map rps rp fst snd]; [by rewrite rtpa_acct|done].
  Qed.
  Lemma rgpa E ts ts' p fl c : renumbered f ts ts' -> by_owner_or_mint p fl -> ts_gpa E ts' p fl c = ts_gpa E ts p fl c.
  Proof.
    intros Hr Hq. unfold ts_gpa. destruct (_ && _); [done|]. rewrite (rgpa_fin _ _ _ _ _ Hr Hq). destruct (gpa_fin E ts p fl) as [[l|]|]; cbn [mbind res_bind]; [|done..].
    rewrite (rn_pend _ _ _ Hr), (rn_conf _ _ _ Hr), (rn_mints _ _ _ Hr), rpdget. destruct c; [| |done]; destruct (pd_get _ _ _ _) as [ps|]; cbn [mbind res_bind]; try done; by rewrite roverlay.
  Qed.
  Lemma keep_all_perm E cs l1 l2 : l1 ≡ₚ l2 -> forall r, keep_all E cs l1 = Done r -> exists r', keep_all E cs l2 = Done r' /\ r ≡ₚ r'.
  Proof.
    induction 1 as [|a l l' H IH|a a' l|l l' l'' H1 IH1 H2 IH2]; intros r.
    - eauto.
    - cbn [keep_all]. destruct (all_r _ cs) as [o|]; cbn [mbind res_bind]; [|done]. destruct (keep_all E cs l) as [r0|]; cbn [mbind res_bind]; [|done]. intros [= <-]. destruct (IH _ eq_refl) as (r' & -> & Hp).
      cbn [mbind res_bind]. eexists. split; [done|]. destruct o; [by constructor|done].
    - cbn [keep_all]. set (k := all_r (fun c => d ← data_bytes E (d_data a); allows E c d) cs). set (k' := all_r (fun c => d ← data_bytes E (d_data a'); allows E c d) cs). destruct k as [o|], k' as [o'|]; cbn [mbind res_bind]; try done.
      destruct (keep_all E cs l) as [r0|]; cbn [mbind res_bind]; [|done]. intros [= <-]. eexists. split; [done|]. destruct o, o'; try done. constructor.
    - intros Hr. destruct (IH1 _ Hr) as (r1 & Hr1 & Hp1). destruct (IH2 _ Hr1) as (r2 & Hr2 & Hp2). exists r2. split; [done|]. by rewrite Hp1.
  Qed.
  (** The list of all mints, in some order. *)
  Lemma rgpa_mints E ts ts' p fl r : renumbered f ts ts' -> ts_gpa E ts p fl Finalized = Done (ROk r) -> exists r', ts_gpa E ts' p fl Finalized = Done (ROk r') /\ r ≡ₚ r'.
  Proof.
    intros Hr. destruct fl as [cs|]; [|intros H; exists r; by rewrite (rgpa E ts ts' p None Finalized Hr I)]. destruct (decide (owner_mint_filter p cs = (None, None))) as [Hq|Hq]; [|intros H; exists r; by rewrite (rgpa E ts ts' p (Some cs) Finalized Hr Hq)].
    unfold ts_gpa. destruct (_ && _); [done|]. unfold gpa_fin. rewrite Hq. destruct (bool_decide _); [|done].
    destruct (keep_all E cs _) as [r0|] eqn:Hk; cbn [mbind res_bind]; [|done]. intros [= <-]. eapply keep_all_perm in Hk as (r' & Hk' & Hp).
    - exists r'. rewrite Hk'. cbn [mbind res_bind]. done.
    - rewrite (rn_mints _ _ _ Hr), (rn_fin _ _ _ Hr). unfold kmap. rewrite map_to_list_to_map.
      + rewrite <- list_fmap_compose. apply Permutation_refl'. apply list_fmap_ext. by intros i [k m] _.
      + rewrite <- list_fmap_compose. change (NoDup ((f ∘ fst) <$> map_to_list (ts_mints ts))). rewrite list_fmap_compose. apply NoDup_fmap_2; [apply _|]. apply NoDup_fst_map_to_list.
  Qed.
  (** Reading many keys and laying the results over the list does not depend on the order. *)
  Notation entry := (acct * option (pacct * N))%type.
  Definition fill1 (b : pslot) (s : N) (x : entry) : entry := (x.1, match x.2 with Some _ => x.2 | None => (fun a => (a, s)) <$> ps_accounts b !! d_pubkey x.1 end).
  Lemma fill_entries b s (z : list entry) : fill b s (d_pubkey <$> z.*1) z.*2 = (fill1 b s <$> z).*2.
  Proof. induction z as [|[a o] z IH]; [done|]. rewrite !fmap_cons. cbn [fill fst snd]. by rewrite IH. Qed.
  Lemma fill_keys b s (z : list entry) : (fill1 b s <$> z).*1 = z.*1.
  Proof. induction z as [|[a o] z IH]; [done|]. rewrite !fmap_cons. by rewrite IH. Qed.
  Lemma found_perm (z z' : list entry) : z ≡ₚ z' -> all_found z.*2 = all_found z'.*2.
  Proof.
    intros H. unfold all_found. apply eq_bool_prop_intro. rewrite !Is_true_true, !forallb_forall. setoid_rewrite <- elem_of_list_In. split; intros Hf x Hx; apply Hf; [by rewrite H|by rewrite <- H].
  Qed.
  Lemma conf_perm p : forall n cur (z z' : list entry) r, z ≡ₚ z' -> conf_walk n p (d_pubkey <$> z.*1) cur z.*2 = Some r ->
    exists w w' : list entry, w.*1 = z.*1 /\ w'.*1 = z'.*1 /\ w ≡ₚ w' /\ r = w.*2 /\ conf_walk n p (d_pubkey <$> z'.*1) cur z'.*2 = Some w'.*2.
  Proof.
    induction n as [|n IH]; intros cur z z' r Hz; cbn [conf_walk]; [done|]. destruct cur as [s|]; [|intros [= <-]; by exists z, z']. destruct (sm_get s p) as [b|]; [|intros [= <-]; by exists z, z'].
    rewrite !fill_entries. assert (fill1 b s <$> z ≡ₚ fill1 b s <$> z') as Hw by (by rewrite Hz). rewrite <- (found_perm _ _ Hw). destruct (all_found _).
    - intros [= <-]. exists (fill1 b s <$> z), (fill1 b s <$> z'). by rewrite !fill_keys.
    - rewrite <- (fill_keys b s z), <- (fill_keys b s z'). by apply IH.
  Qed.
  Lemma proc_perm n p conf : forall l (z z' : list entry) r, z ≡ₚ z' -> proc_walk n p (d_pubkey <$> z.*1) conf l z.*2 = Some r ->
    exists w w' : list entry, w.*1 = z.*1 /\ w'.*1 = z'.*1 /\ w ≡ₚ w' /\ r = w.*2 /\ proc_walk n p (d_pubkey <$> z'.*1) conf l z'.*2 = Some w'.*2.
  Proof.
    induction l as [|[s b] l IH]; intros z z' r Hz; cbn [proc_walk]; [intros [= <-]; by exists z, z'|]. destruct (conf <? s); [|by apply conf_perm].
    rewrite !fill_entries. assert (fill1 b s <$> z ≡ₚ fill1 b s <$> z') as Hw by (by rewrite Hz). rewrite <- (found_perm _ _ Hw). destruct (all_found _).
    - intros [= <-]. exists (fill1 b s <$> z), (fill1 b s <$> z'). by rewrite !fill_keys.
    - rewrite <- (fill_keys b s z), <- (fill_keys b s z'). by apply IH.
  Qed.
  Lemma blank (l : list acct) : ((fun a => (a, None) : entry) <$> l).*1 = l /\ ((fun a => (a, None) : entry) <$> l).*2 = replicate (length (d_pubkey <$> l)) None.
  Proof. rewrite fmap_length. induction l as [|a l [IH1 IH2]]; [done|]. rewrite !fmap_cons, IH1, IH2. done. Qed.
  Lemma get_perm p c conf l l' r : l ≡ₚ l' -> pd_get p (d_pubkey <$> l) c conf = Done r ->
    exists w w' : list entry, w.*1 = l /\ w'.*1 = l' /\ w ≡ₚ w' /\ r = w.*2 /\ pd_get p (d_pubkey <$> l') c conf = Done w'.*2.
  Proof.
    intros Hl. set (z := (fun a => (a, None) : entry) <$> l). set (z' := (fun a => (a, None) : entry) <$> l'). assert (z ≡ₚ z') as Hz by (unfold z, z'; by rewrite Hl).
    destruct (blank l) as [H1 H2], (blank l') as [H1' H2']. fold z in H1, H2. fold z' in H1', H2'. unfold pd_get, pd_get_fuel. rewrite <- H2, <- H2'. rewrite <- H1, <- H1'. destruct c; cbn [mbind res_bind].
    - destruct (proc_walk _ _ _ _ _ _) as [r0|] eqn:Hw; [|done]. intros [= <-]. destruct (proc_perm _ _ _ _ _ _ _ Hz Hw) as (w & w' & ? & ? & ? & ? & ->). by exists w, w'.
    - destruct (conf_walk _ _ _ _ _) as [r0|] eqn:Hw; [|done]. intros [= <-]. destruct (conf_perm _ _ _ _ _ _ Hz Hw) as (w & w' & ? & ? & ? & ? & ->). by exists w, w'.
    - done.
  Qed.
  Lemma overlay_perm ms (w w' : list entry) : w ≡ₚ w' -> forall r, overlay ms w.*1 w.*2 = Done r -> exists r', overlay ms w'.*1 w'.*2 = Done r' /\ r ≡ₚ r'.
  Proof.
    induction 1 as [|x l l' H IH|x y l|l l' l'' H1 IH1 H2 IH2]; intros r.
    - eauto.
    - rewrite !fmap_cons. cbn [overlay]. set (k := match x.2 with Some _ => _ | None => _ end). destruct k as [o|]; cbn [mbind res_bind]; [|done]. destruct (overlay ms l.*1 l.*2) as [r0|]; cbn [mbind res_bind]; [|done].
      intros [= <-]. destruct (IH _ eq_refl) as (r' & -> & Hp). cbn [mbind res_bind]. eexists. split; [done|]. destruct o; [by constructor|done].
    - rewrite !fmap_cons. cbn [overlay]. set (k := match x.2 with Some _ => _ | None => _ end). set (k' := match y.2 with Some _ => _ | None => _ end). destruct k as [o|], k' as [o'|]; cbn [mbind res_bind]; try done.
      destruct (overlay ms l.*1 l.*2) as [r0|]; cbn [mbind res_bind]; [|done]. intros [= <-]. eexists. split; [done|]. destruct o, o'; try done. constructor.
    - intros Hr. destruct (IH1 _ Hr) as (r1 & Hr1 & Hp1). destruct (IH2 _ Hr1) as (r2 & Hr2 & Hp2). exists r2. split; [done|]. by rewrite Hp1.
  Qed.
  (** Every query: the list of all mints comes in some order. *)
  Lemma rgpa_any E ts ts' p fl c r : renumbered f ts ts' -> ts_gpa E ts p fl c = Done (ROk r) -> exists r', ts_gpa E ts' p fl c = Done (ROk r') /\ r ≡ₚ r'.
  Proof.
    intros Hr. unfold ts_gpa at 1. destruct (_ && _) eqn:Hb; [done|]. destruct (gpa_fin E ts p fl) as [[l|]|] eqn:Hg; cbn [mbind res_bind]; [|done..]. intros H.
    assert (exists l', gpa_fin E ts' p fl = Done (ROk l') /\ l ≡ₚ l') as (l' & Hg' & Hl).
    { destruct (rgpa_mints E ts ts' p fl l Hr) as (l' & Hg' & Hl); [unfold ts_gpa; by rewrite Hb, Hg|]. exists l'. split; [|done]. unfold ts_gpa in Hg'. rewrite Hb in Hg'. destruct (gpa_fin E ts' p fl) as [[]|]; [|done..]. by injection Hg' as ->. }
    unfold ts_gpa. rewrite Hb, Hg'. cbn [mbind res_bind]. destruct c; [| |injection H as <-; eauto];
    (destruct (pd_get (ts_pend ts) _ _ _) as [ps|] eqn:Hps; cbn [mbind res_bind] in H; [|done]; destruct (overlay _ _ _) as [r0|] eqn:Ho; cbn [mbind res_bind] in H; [|done]; injection H as ->;
     destruct (get_perm _ _ _ _ _ _ Hl Hps) as (w & w' & <- & <- & Hw & -> & Hps'); rewrite (rn_pend _ _ _ Hr), (rn_conf _ _ _ Hr), (rn_mints _ _ _ Hr), rpdget, Hps'; cbn [mbind res_bind]; rewrite roverlay;
     destruct (overlay_perm _ _ _ Hw _ Ho) as (r' & -> & Hp); cbn [mbind res_bind]; eauto).
  Qed.
End renumber.

(** ** Stores that differ by a renumbering *)
Lemma kmap_same {A} (f : N -> N) (m : gmap N A) : Inj (=) (=) f -> (forall k, is_Some (m !! k) -> f k = k) -> kmap f m = m.
Proof.
  intros Hf H. apply map_eq. intros j. apply option_eq. intros x. rewrite (lookup_kmap_Some f). split.
  - intros (i & -> & Hi). rewrite H; [done|by eexists].
  - intros Hj. exists j. split; [|done]. symmetry. apply H. by eexists.
Qed.
Lemma kmap_kmap {A} (f h : N -> N) (m : gmap N A) : Inj (=) (=) f -> Inj (=) (=) h -> (kmap h (kmap f m : gmap N A) : gmap N A) = kmap (h ∘ f) m.
Proof.
  intros Hf Hh. apply map_eq. intros j. apply option_eq. intros x. rewrite (lookup_kmap_Some h), (lookup_kmap_Some (h ∘ f)). setoid_rewrite (lookup_kmap_Some f). split.
  - intros (i & -> & k & -> & Hk). by exists k.
  - intros (k & -> & Hk). eexists. split; [done|]. by exists k.
Qed.
Definition bijection (f g : N -> N) : Prop := (forall i, g (f i) = i) /\ (forall i, f (g i) = i).
Definition differ_by_numbers (ts ts' : tstore) : Prop := exists f g, bijection f g /\ above f (ts_ctr ts) /\ renumbered f ts ts'.
(** The keys of the index by mint are numbers given out. *)
Definition bm_low (ts : tstore) : Prop := forall k, is_Some (ts_by_mint ts !! k) -> k < ts_ctr ts.
Lemma add_bm c ts a ts' : add_finalized ts a = Done ts' -> tpa_ok c a -> (forall k, is_Some (ts_by_mint ts !! k) -> k < c) -> forall k, is_Some (ts_by_mint ts' !! k) -> k < c.
Proof.
  destruct a as [t|m|m pk|pk]; cbn [add_finalized]; intros H Hok Hb k.
  - unfold add_token in H. destruct (tb_save _ _) as [[[tb i] b]|]; cbn [mbind res_bind] in H; [|done]. injection H as <-. destruct b; cbn; [|apply Hb]. unfold push_at. rewrite lookup_insert_is_Some'.
    destruct Hok as (_ & [Hm _] & _). intros [<-|Hk]; [done|by apply Hb].
  - destruct (_ !! _); injection H as <-; apply Hb.
  - injection H as <-. apply Hb.
  - destruct (_ !! _); [injection H as <-|destruct (tb_delete _ _); cbn [mbind res_bind] in H; [|done]; injection H as <-]; cbn; [|apply Hb]. intros [x Hx]. apply lookup_delete_Some in Hx as [_ Hx]. apply Hb. by eexists.
Qed.
Lemma adds_bm c l : forall ts ts', add_all ts l = Done ts' -> Forall (tpa_ok c) l -> (forall k, is_Some (ts_by_mint ts !! k) -> k < c) -> forall k, is_Some (ts_by_mint ts' !! k) -> k < c.
Proof.
  induction l as [|a l IH]; intros ts ts' H Hok Hb; cbn [add_all] in H; [injection H as <-; done|]. apply Forall_cons in Hok as [Ha Hok]. destruct (add_finalized ts a) as [t|] eqn:H1; cbn [mbind res_bind] in H; [|done].
  apply (IH _ _ H Hok). exact (add_bm c ts a t H1 Ha Hb).
Qed.
Lemma step_bm E X ts o ts' : ts_step E X ts o = Done ts' -> op_ok o -> tinv ts -> ts_ctr ts' <= 2 ^ 32 -> bm_low ts -> bm_low ts'.
Proof.
  intros H Hok Hi Hc Hb. destruct (step_shape _ _ _ _ _ H Hok Hi Hc) as (ts1 & Ha & _ & Hsf & Hf). pose proof (add_all_ctr _ _ _ Ha). pose proof (step_ctr _ _ _ _ _ H Hok).
  refine (adds_bm (ts_ctr ts') _ _ _ Ha _ _).
  - eapply Forall_impl; [exact Hf|]. intros x Hx. eapply tpa_ok_mono; [exact Hx|lia].
  - rewrite (sf_by_mint _ _ _ _ Hsf). intros k Hk. apply Hb in Hk. lia.
Qed.
Lemma run_bm E X l : forall ts ts', ts_run E X ts l = Done ts' -> ops_ok l -> tinv ts -> ts_ctr ts' <= 2 ^ 32 -> bm_low ts -> bm_low ts'.
Proof.
  induction l as [|o l IH]; intros ts ts' H Hok Hi Hc Hb; cbn [ts_run] in H; [by injection H as <-|]. apply Forall_cons in Hok as [Ho Hok]. destruct (ts_step E X ts o) as [t|] eqn:H1; cbn [mbind res_bind] in H; [|done].
  pose proof (run_ctr _ _ _ _ _ H Hok). apply (IH _ _ H Hok); [eapply step_inv; [done..|lia]|done|]. eapply step_bm; [done..|lia|done].
Qed.
Lemma renumber_same f g ts : bijection f g -> tinv ts -> bm_low ts -> (forall i, i < ts_ctr ts -> f i = i) -> renumbered f ts ts.
Proof.
  intros [Hgf Hfg] Hi Hb Hid. pose proof (f_inj f g Hgf) as Hinj. constructor; try done.
  - symmetry. apply kmap_same; [done|]. intros k [m Hm]. by apply Hid, (mints_below _ _ _ Hi Hm).
  - apply map_eq. intros pk. rewrite lookup_fmap. destruct (ts_mint_ix ts !! pk) as [i|] eqn:He; [|done]. cbn. rewrite Hid; [done|]. by apply (ti_ix _ Hi) in He.
  - symmetry. apply kmap_same; [done|]. intros k Hk. by apply Hid, Hb.
  - split; [done|]. apply Forall_Forall2_diag, Forall_lookup. intros i v Hv. destruct (to_all _ (ti_table _ Hi) i v Hv) as (t & Hg & ->). split; [done|]. exists t, t. rewrite (good_from _ Hg). split_and!; try done.
    intros Hd. destruct (ti_tokens _ Hi i t) as [Hm _]; [by split|done|]. unfold ren. rewrite Hid by done. by rewrite with_mint_id.
  - unfold rpend. transitivity (id <$> ts_pend ts); [by rewrite list_fmap_id|]. apply list_fmap_ext. intros i [s b] He. apply elem_of_list_lookup_2 in He. cbn. f_equal. destruct b as [m q]. unfold rb. cbn [ps_accounts ps_parent]. f_equal.
    apply map_eq. intros pk. rewrite lookup_fmap. destruct (m !! pk) as [[a w]|] eqn:Hm; [|done]. cbn. f_equal. unfold rp. cbn. f_equal.
    destruct (ti_pend _ Hi s pk (a, w)) as [Hok _]; [by exists (PSlot m q)|]. destruct a as [t| | |]; try done. destruct Hok as (_ & [Ht _] & _). cbn. unfold ren. rewrite Hid by done. by rewrite with_mint_id.
Qed.
Lemma differ_refl ts : tinv ts -> bm_low ts -> differ_by_numbers ts ts.
Proof. intros Hi Hb. exists id, id. split; [done|]. split; [done|]. apply (renumber_same id id); done. Qed.
Lemma differ_trans ts ts' ts'' : differ_by_numbers ts ts' -> differ_by_numbers ts' ts'' -> differ_by_numbers ts ts''.
Proof.
  intros (f & g & [Hgf Hfg] & Ha & Hr) (h & k & [Hkh Hhk] & Ha' & Hr'). pose proof (f_inj f g Hgf) as Hf. pose proof (f_inj h k Hkh) as Hh. exists (h ∘ f), (g ∘ k). split; [split; intros i; cbn; [by rewrite Hkh, Hgf|by rewrite Hfg, Hhk]|]. split.
  { intros i Hi. cbn. rewrite (Ha i) by done. apply Ha'. by rewrite (rn_ctr _ _ _ Hr). }
  assert (forall t, ren h (ren f t) = ren (h ∘ f) t) as Hren by (by intros []).
  destruct Hr, Hr'. constructor; try congruence.
  - rewrite rn_mints1, rn_mints0. by apply kmap_kmap.
  - rewrite rn_ix1, rn_ix0. by rewrite <- map_fmap_compose.
  - rewrite rn_bm1, rn_bm0. by apply kmap_kmap.
  - destruct rn_table0 as [T1 T2], rn_table1 as [T3 T4]. split; [congruence|]. eapply Forall2_transitive; [|exact T2|exact T4]. intros x y z (P1 & t & t' & F1 & F2 & D1 & D2) (P2 & u & u' & F3 & F4 & D3 & D4). split; [congruence|].
    exists t, u'. rewrite F2 in F3. injection F3 as <-. split_and!; [done|done|congruence|]. intros Hd. rewrite D4 by congruence. rewrite D2 by done. apply Hren.
  - rewrite rn_pend1, rn_pend0. unfold rpend. rewrite <- list_fmap_compose. apply list_fmap_ext. intros i [s [m q]] _. cbn. f_equal. unfold rb. cbn. f_equal. rewrite <- map_fmap_compose. apply map_fmap_ext. intros pk [a w] _. unfold rp. cbn. f_equal.
    destruct a; [|done..]. cbn. by rewrite Hren.
Qed.

(** ** Two updates *)
(** What an update is, whatever numbers the mints have. *)
Definition reading : Type := option (tpa + program * spl_account * option bytes).
Definition as_read (k : reading) (a : acct) (ix : gmap pubkey N) (ctr : N) : option (tpa * gmap pubkey N * N) :=
  match k with
  | None => None
  | Some (inl ty) => Some (ty, ix, ctr)
  | Some (inr (p, s, x)) => let '(i, ix', ctr') := mint_index (sa_mint s) ix ctr in Some (TPToken (of_spl_account p a s i x), ix', ctr')
  end.
Lemma account_reading E a : exists k : res reading, forall ix ctr, account_type E a ix ctr = (o ← k; Done (as_read o a ix ctr)).
Proof.
  unfold account_type. destruct (_ || _); [by exists (Done (Some (inl (TPDeleted (d_pubkey a)))))|].
  destruct (d_owner a =? spl_2022_id); destruct (data_bytes E (d_data a)) as [v|]; cbn [mbind res_bind]; try (by exists Panic).
  - destruct (data_len (d_data a) =? 82).
    { destruct (unpack_mint v) as [m|]; [by exists (Done (Some (inl (TPMint (of_spl_mint Token2022P a m None)))))|by exists (Done None)]. }
    destruct (data_len (d_data a) =? 165).
    { destruct (unpack_account v) as [s|]; [exists (Done (Some (inr (Token2022P, s, None)))); done|by exists (Done None)]. }
    destruct (data_len (d_data a) =? 355).
    { destruct (unpack_multisig v) as [m|]; [by exists (Done (Some (inl (TPMulti (of_spl_multisig Token2022P a m) (d_pubkey a)))))|by exists (Done None)]. }
    destruct (165 <? data_len (d_data a)); [|by exists (Done None)]. destruct (v !! 165%nat) as [b|]; cbn [unwrap mbind res_bind]; [|by exists Panic].
    destruct (b2n b =? 1); [destruct (unpack_mint v) as [m|]; [by exists (Done (Some (inl (TPMint (of_spl_mint Token2022P a m (Some (drop 165 v)))))))|by exists (Done None)]|].
    destruct (b2n b =? 2); [|by exists (Done None)]. destruct (unpack_account v) as [s|]; [exists (Done (Some (inr (Token2022P, s, Some (drop 165 v))))); done|by exists (Done None)].
  - destruct (data_len (d_data a) =? 82).
    { destruct (unpack_mint v) as [m|]; [by exists (Done (Some (inl (TPMint (of_spl_mint TokenP a m None)))))|by exists (Done None)]. }
    destruct (data_len (d_data a) =? 165).
    { destruct (unpack_account v) as [s|]; [exists (Done (Some (inr (TokenP, s, None)))); done|by exists (Done None)]. }
    destruct (unpack_multisig v) as [m|]; [by exists (Done (Some (inl (TPMulti (of_spl_multisig TokenP a m) (d_pubkey a)))))|by exists (Done None)].
Qed.
Definition taken (ts : tstore) (a : acct) (k : reading) : tstore :=
  match as_read k a (ts_mint_ix ts) (ts_ctr ts) with
  | None => ts
  | Some (ty, ix, ctr) => set_pend (set_ix ts ix ctr) (pd_insert (ts_pend ts) (d_pubkey a) ty (d_wv a) (d_slot a)).1
  end.
Definition token_owned (a : acct) : Prop := d_owner a = spl_token_id \/ d_owner a = spl_2022_id.
Lemma update_taken E a : token_owned a -> exists k : res reading, forall X ts c, c <> Finalized -> ts_step E X ts (TUpdate a c) = (o ← k; Done (taken ts a o)).
Proof.
  intros Ho. destruct (account_reading E a) as [k Hk]. exists k. intros X ts c Hc. cbn [ts_step]. unfold ts_update. rewrite (owner_is_token ts a Ho). cbn [mbind res_bind]. rewrite Hk. destruct k as [o|]; cbn [mbind res_bind]; [|done].
  unfold taken. destruct (as_read o a (ts_mint_ix ts) (ts_ctr ts)) as [[[ty ix] ctr]|]; [|done]. change (ts_pend (set_ix ts ix ctr)) with (ts_pend ts). destruct (pd_insert _ _ _ _ _) as [p b]. by destruct c.
Qed.
Definition sw (c i : N) : N := if i =? c then c + 1 else if i =? c + 1 then c else i.
Lemma sw_c c : sw c c = c + 1. Proof. unfold sw. by rewrite N.eqb_refl. Qed.
Lemma sw_c1 c : sw c (c + 1) = c. Proof. unfold sw. destruct (N.eqb_spec (c + 1) c); [lia|]. by rewrite N.eqb_refl. Qed.
Lemma sw_other c i : i <> c -> i <> c + 1 -> sw c i = i.
Proof. intros H1 H2. unfold sw. destruct (N.eqb_spec i c); [done|]. by destruct (N.eqb_spec i (c + 1)). Qed.
Lemma sw_sw c i : sw c (sw c i) = i.
Proof. destruct (decide (i = c)) as [->|H1]; [by rewrite sw_c, sw_c1|]. destruct (decide (i = c + 1)) as [->|H2]; [by rewrite sw_c1, sw_c|]. by rewrite !(sw_other c i). Qed.

Lemma taken_swap ts a k a' k' : tinv ts -> bm_low ts -> ~ (d_pubkey a = d_pubkey a' /\ d_slot a = d_slot a' /\ d_wv a = d_wv a') -> tinv (taken (taken ts a k) a' k') -> bm_low (taken (taken ts a k) a' k') ->
  differ_by_numbers (taken (taken ts a k) a' k') (taken (taken ts a' k') a k).
Proof.
  intros Hi Hb Hne Hi2 Hb2.
  assert (forall ty ty', (pd_insert (pd_insert (ts_pend ts) (d_pubkey a) ty (d_wv a) (d_slot a)).1 (d_pubkey a') ty' (d_wv a') (d_slot a')).1 = (pd_insert (pd_insert (ts_pend ts) (d_pubkey a') ty' (d_wv a') (d_slot a')).1 (d_pubkey a) ty (d_wv a) (d_slot a)).1) as Hins.
  { intros ty ty'. apply insert_insert_pend; [apply (ti_sorted _ Hi)|]. intros H1 H2 H3. by destruct Hne. }
  assert (taken (taken ts a k) a' k' = taken (taken ts a' k') a k -> differ_by_numbers (taken (taken ts a k) a' k') (taken (taken ts a' k') a k)) as Heq by (intros <-; by apply differ_refl).
  destruct k as [[ty|[[p s] x]]|], k' as [[ty'|[[p' s'] x']]|]; try (apply Heq; unfold taken, as_read; repeat case_match; simplify_eq; done).
  - apply Heq. unfold taken, as_read, set_pend, set_ix. cbn [ts_mints ts_mint_ix ts_multi ts_by_mint ts_by_owner ts_table ts_pend ts_conf ts_fin ts_ctr]. by rewrite Hins.
  - apply Heq. unfold taken, as_read. cbn [set_pend set_ix ts_mint_ix ts_ctr]. destruct (mint_index (sa_mint s') (ts_mint_ix ts) (ts_ctr ts)) as [[i ix] ctr]. unfold set_pend, set_ix. cbn [ts_mints ts_mint_ix ts_multi ts_by_mint ts_by_owner ts_table ts_pend ts_conf ts_fin ts_ctr]. by rewrite Hins.
  - apply Heq. unfold taken, as_read. cbn [set_pend set_ix ts_mint_ix ts_ctr]. destruct (mint_index (sa_mint s) (ts_mint_ix ts) (ts_ctr ts)) as [[i ix] ctr]. unfold set_pend, set_ix. cbn [ts_mints ts_mint_ix ts_multi ts_by_mint ts_by_owner ts_table ts_pend ts_conf ts_fin ts_ctr]. by rewrite Hins.
  - set (m := sa_mint s). set (m' := sa_mint s'). set (ix := ts_mint_ix ts). set (c := ts_ctr ts).
    destruct (decide ((is_Some (ix !! m) \/ is_Some (ix !! m')) \/ m = m')) as [Hk|Hk].
    + apply Heq. unfold taken, as_read. cbn [set_pend set_ix ts_mint_ix ts_ctr]. fold m m' ix c. unfold mint_index.
      destruct (ix !! m) as [i|] eqn:H1, (ix !! m') as [i'|] eqn:H2; cbn [set_pend set_ix ts_mint_ix ts_ctr]; rewrite ?H1, ?H2.
      * unfold set_pend, set_ix. cbn [ts_mints ts_mint_ix ts_multi ts_by_mint ts_by_owner ts_table ts_pend ts_conf ts_fin ts_ctr]. by rewrite Hins.
      * rewrite lookup_insert_ne by congruence. rewrite H1. unfold set_pend, set_ix. cbn [ts_mints ts_mint_ix ts_multi ts_by_mint ts_by_owner ts_table ts_pend ts_conf ts_fin ts_ctr]. by rewrite Hins.
      * rewrite lookup_insert_ne by congruence. rewrite H2. unfold set_pend, set_ix. cbn [ts_mints ts_mint_ix ts_multi ts_by_mint ts_by_owner ts_table ts_pend ts_conf ts_fin ts_ctr]. by rewrite Hins.
      * destruct Hk as [[[? ?]|[? ?]]|Hk]; [done..|]. rewrite <- Hk, !lookup_insert. unfold set_pend, set_ix. cbn [ts_mints ts_mint_ix ts_multi ts_by_mint ts_by_owner ts_table ts_pend ts_conf ts_fin ts_ctr]. by rewrite Hins.
    + assert (ix !! m = None) as H1 by (destruct (ix !! m) eqn:He; [destruct Hk; left; left; by eexists|done]). assert (ix !! m' = None) as H2 by (destruct (ix !! m') eqn:He; [destruct Hk; left; right; by eexists|done]).
      assert (m <> m') as Hmm by (intros He; apply Hk; by right).
      assert (bijection (sw c) (sw c)) as Hbij by (split; apply sw_sw). assert (renumbered (sw c) ts ts) as Hr by (apply (renumber_same _ _ _ Hbij Hi Hb); intros i Hlt; apply sw_other; unfold c; lia).
      clear Heq Hi2 Hb2. unfold taken, as_read. cbn [set_pend set_ix ts_mint_ix ts_ctr]. fold m m' ix c. unfold mint_index. rewrite H1, H2. cbn [set_pend set_ix ts_mint_ix ts_ctr]. rewrite !lookup_insert_ne, H1, H2 by congruence.
      exists (sw c), (sw c). split; [done|]. split.
      { intros i Hge. cbn [set_pend set_ix ts_ctr] in Hge. apply sw_other; lia. }
      destruct Hr. constructor; cbn [set_pend set_ix ts_mints ts_mint_ix ts_multi ts_by_mint ts_by_owner ts_table ts_pend ts_conf ts_fin ts_ctr]; try done.
      * rewrite !fmap_insert, sw_c, sw_c1. unfold ix. rewrite <- rn_ix0. by rewrite insert_commute.
      * assert (forall q pk pp aa ss xx i w t, rpend (sw c) (pd_insert q pk (TPToken (of_spl_account pp aa ss i xx)) w t).1 = (pd_insert (rpend (sw c) q) pk (TPToken (of_spl_account pp aa ss (sw c i) xx)) w t).1) as Hpush.
        { intros q pk pp aa ss xx i w t. change (TPToken (of_spl_account pp aa ss (sw c i) xx)) with (rtpa (sw c) (TPToken (of_spl_account pp aa ss i xx))). by rewrite rinsert. }
        rewrite !Hpush, sw_c, sw_c1, <- rn_pend0. by rewrite Hins.
Qed.

(** ** Batches *)
Definition may_come (u : acct * commitment) : Prop := u.2 <> Finalized /\ d_pubkey u.1 < 2 ^ 256 /\ token_owned u.1.
Lemma ups_ok us : Forall may_come us -> ops_ok (ups us).
Proof. intros H. unfold ops_ok, ups. apply Forall_fmap. eapply Forall_impl; [exact H|]. by intros [a c] (_ & Hp & _). Qed.
Lemma run_hears E X l : forall ts ts1, ts_run E X ts l = Done ts1 -> exists x, hears E X ts l = Done (ts1, x).
Proof.
  induction l as [|o l IH]; intros ts ts1; cbn [hears ts_run]; [intros [= <-]; eauto|]. destruct (ts_step E X ts o) as [t|] eqn:H; cbn [mbind res_bind]; [|done]. intros Hr. destruct (IH _ _ Hr) as (x & Hx).
  assert (exists y, hear E X ts o = Done (t, y)) as (y & ->).
  { destruct o as [a c|a|ord si c|p b]; cbn [ts_step hear] in *.
    - destruct (ts_update _ _ _ _) as [[? r]|]; cbn [mbind res_bind] in *; [|done]. injection H as ->. eauto.
    - rewrite H. cbn [mbind res_bind]. eauto.
    - destruct (ts_slot _ _ _ _) as [[? r]|]; cbn [mbind res_bind] in *; [|done]. injection H as ->. eauto.
    - destruct (ts_load _ _ _ _) as [[? r]|]; cbn [mbind res_bind] in *; [|done]. injection H as ->. eauto. }
  cbn [mbind res_bind]. rewrite Hx. cbn [mbind res_bind]. eauto.
Qed.
Lemma rop_ups f g us : rop f g <$> ups us = ups us.
Proof. unfold ups. rewrite <- list_fmap_compose. by apply list_fmap_ext. Qed.
Lemma differ_batch E X us ts ts' ts1 : differ_by_numbers ts ts' -> tinv ts -> Forall may_come us -> ts_run E X ts (ups us) = Done ts1 -> ts_ctr ts1 <= 2 ^ 32 ->
  exists ts1', ts_run E X ts' (ups us) = Done ts1' /\ differ_by_numbers ts1 ts1'.
Proof.
  intros (f & g & [Hgf Hfg] & Ha & Hr) Hi Hus H Hc. pose proof (ups_ok _ Hus) as Hok. destruct (run_hears _ _ _ _ _ H) as (x & Hx).
  destruct (rhears f g Hgf Hfg E X (ups us) ts ts' ts1 x Hr Ha Hi Hok Hx Hc) as (ts1' & x' & Hx' & _ & Hr1). rewrite rop_ups in Hx'. exists ts1'. split; [by eapply hears_run|].
  exists f, g. split; [done|]. split; [|done]. intros i Hl. apply Ha. pose proof (run_ctr _ _ _ _ _ H Hok). lia.
Qed.
Lemma batch_differ E X us vs : us ≡ₚ vs -> forall ts ts1, tinv ts -> bm_low ts -> Forall may_come us -> one_version us -> ts_run E X ts (ups us) = Done ts1 -> ts_ctr ts1 <= 2 ^ 32 ->
  exists ts2, ts_run E X ts (ups vs) = Done ts2 /\ differ_by_numbers ts1 ts2.
Proof.
  induction 1 as [|u us vs H IH|u v us|us vs ws H1 IH1 H2 IH2]; intros ts ts1 Hi Hb Hall Hone Hr Hc.
  - injection Hr as <-. exists ts. split; [done|]. by apply differ_refl.
  - apply Forall_cons in Hall as [Hu Hall]. cbn [ups fmap list_fmap ts_run] in Hr |- *. destruct (ts_step E X ts _) as [t|] eqn:Hs; cbn [mbind res_bind] in Hr |- *; [|done].
    pose proof (run_ctr _ _ _ _ _ Hr (ups_ok _ Hall)) as Hc1. assert (op_ok (TUpdate u.1 u.2)) as Ho by apply Hu.
    apply (IH t ts1); [eapply step_inv; [done..|lia]|eapply step_bm; [done..|lia|done]|done| |done|done]. intros x y Hx Hy. apply Hone; by apply elem_of_list_further.
  - apply Forall_cons in Hall as [Hu Hall]. apply Forall_cons in Hall as [Hv Hall]. destruct u as [a c], v as [a' c']. destruct Hu as (Hc' & Hp' & Ho'), Hv as (Hcc & Hp & Ho). cbn [fst snd] in *.
    change (ups ((a', c') :: (a, c) :: us)) with ([TUpdate a' c'; TUpdate a c] ++ ups us) in Hr. change (ups ((a, c) :: (a', c') :: us)) with ([TUpdate a c; TUpdate a' c'] ++ ups us).
    assert (exists t, ts_run E X ts [TUpdate a' c'; TUpdate a c] = Done t /\ ts_run E X t (ups us) = Done ts1) as (t & Ht & Hrest).
    { cbn [ts_run app] in Hr |- *. destruct (ts_step E X ts (TUpdate a' c')) as [t0|]; cbn [mbind res_bind] in Hr |- *; [|done]. destruct (ts_step E X t0 (TUpdate a c)) as [t1|]; cbn [mbind res_bind] in Hr |- *; [|done]. eauto. }
    pose proof (run_ctr _ _ _ _ _ Hrest (ups_ok _ Hall)) as Hct. assert (ops_ok [TUpdate a' c'; TUpdate a c]) as Hok2 by (repeat (apply Forall_cons_2; [done|]); by apply Forall_nil_2).
    assert (tinv t) as Hit by (eapply run_inv; [exact Ht|done..|lia]). assert (bm_low t) as Hbt by (eapply run_bm; [exact Ht|done..|lia|done]).
    assert (exists t', ts_run E X ts [TUpdate a c; TUpdate a' c'] = Done t' /\ differ_by_numbers t t') as (t' & Ht' & Hd).
    { destruct (decide (d_pubkey a' = d_pubkey a /\ d_slot a' = d_slot a /\ d_wv a' = d_wv a)) as [(E1 & E2 & E3)|Hne].
      - assert (a' = a) as -> by (apply (Hone (a', c') (a, c)); [left|right; left|done..]). destruct (update_taken E a Ho) as [k Hk]. exists t. split; [|by apply differ_refl]. cbn [ts_run] in Ht |- *.
        rewrite (Hk X ts c Hcc). rewrite (Hk X ts c' Hc') in Ht. destruct k as [o|]; cbn [mbind res_bind] in Ht |- *; [|done]. rewrite (Hk X _ c' Hc'). by rewrite (Hk X _ c Hcc) in Ht.
      - destruct (update_taken E a Ho) as [k Hk], (update_taken E a' Ho') as [k' Hk']. cbn [ts_run] in Ht |- *. rewrite (Hk' X ts c' Hc') in Ht. rewrite (Hk X ts c Hcc).
        destruct k' as [o'|]; cbn [mbind res_bind] in Ht; [|done]. rewrite (Hk X _ c Hcc) in Ht. destruct k as [o|]; cbn [mbind res_bind] in Ht |- *; [|done]. injection Ht as <-.
        rewrite (Hk' X _ c' Hc'). cbn [mbind res_bind]. eexists. split; [done|]. by apply taken_swap. }
    destruct (differ_batch E X us t t' ts1 Hd Hit Hall Hrest Hc) as (ts2 & Hr2 & Hd2). exists ts2. split; [|done]. by rewrite (run_app_done _ _ _ _ _ _ Ht').
  - destruct (IH1 ts ts1 Hi Hb Hall Hone Hr Hc) as (t2 & Hr2 & Hd2). destruct (IH2 ts t2 Hi Hb) as (t3 & Hr3 & Hd3); [by rewrite <- H1|intros x y Hx Hy; rewrite <- H1 in Hx, Hy; by apply Hone|done| |].
    + destruct Hd2 as (f & g & _ & _ & Hrn). by rewrite (rn_ctr _ _ _ Hrn).
    + exists t3. split; [done|]. by eapply differ_trans.
Qed.

(** ** The claims *)
(** What can be asked of a store: reads, queries by owner or mint, and every query up to the order of the answer (a query that names neither lists the mints). *)
Definition same_view (E : ext) (ts ts' : tstore) : Prop :=
  (forall pk c, ts_get ts' pk c = ts_get ts pk c) /\
  (forall p fl c, by_owner_or_mint p fl -> ts_gpa E ts' p fl c = ts_gpa E ts p fl c) /\
  (forall p fl c r, ts_gpa E ts p fl c = Done (ROk r) -> exists r', ts_gpa E ts' p fl c = Done (ROk r') /\ r ≡ₚ r').
(** Updates below finalized of accounts of the token programs, of mints seen before or not, arrive in two orders.  Whatever is called afterwards, snapshots apart, is answered the same. *)
Theorem C111_arrival_order : forall E X l0 ts us vs ts1 l ts2 x,
  ts_run E X ts_empty l0 = Done ts -> ops_ok l0 -> us ≡ₚ vs ->
  Forall (fun u => u.2 <> Finalized /\ d_pubkey u.1 < 2 ^ 256 /\ (d_owner u.1 = spl_token_id \/ d_owner u.1 = spl_2022_id)) us -> one_version us ->
  ts_run E X ts (ups us) = Done ts1 -> ops_ok l -> hears E X ts1 l = Done (ts2, x) -> ts_ctr ts2 <= 2 ^ 32 ->
  exists ts1' l' ts2' x', ts_run E X ts (ups vs) = Done ts1' /\ Forall2 same_call l l' /\ ops_ok l' /\ hears E X ts1' l' = Done (ts2', x') /\ Forall2 same_answer x x' /\ same_view E ts1 ts1' /\ same_view E ts2 ts2'.
Proof.
  intros E X l0 ts us vs ts1 l ts2 x H0 Hok0 Hp Hall Hone Hr Hok Hh Hc.
  pose proof (run_ctr _ _ _ _ _ (hears_run _ _ _ _ _ _ Hh) Hok) as Hc2. pose proof (run_ctr _ _ _ _ _ Hr (ups_ok _ Hall)) as Hc1.
  assert (tinv ts) as Hi by (eapply run_inv; [exact H0|done|apply tinv_empty|lia]).
  assert (bm_low ts) as Hb. { eapply run_bm; [exact H0|done|apply tinv_empty|lia|]. intros k [y Hy]. cbn in Hy. by rewrite lookup_empty in Hy. }
  destruct (batch_differ E X us vs Hp ts ts1 Hi Hb Hall Hone Hr ltac:(lia)) as (ts1' & Hr' & f & g & [Hgf Hfg] & Ha & Hrn).
  assert (tinv ts1) as Hi1 by (eapply run_inv; [exact Hr|by apply ups_ok|done|lia]).
  destruct (rhears f g Hgf Hfg E X l ts1 ts1' ts2 x Hrn Ha Hi1 Hok Hh Hc) as (ts2' & x' & Hh' & Hx & Hrn2).
  assert (forall t t', renumbered f t t' -> same_view E t t') as Hview.
  { intros t t' Ht. split; [intros pk c; by apply (rread f g Hgf)|]. split; [intros p fl c Hq; by apply (rgpa f g Hgf)|]. intros p fl c r Hq. by apply (rgpa_any f g Hgf E t t'). }
  exists ts1', (rop f g <$> l), ts2', x'. split; [done|]. split.
  { clear. induction l as [|o l IH]; [constructor|]. rewrite fmap_cons. constructor; [|exact IH]. by destruct o. }
  split; [apply Forall_fmap; eapply Forall_impl; [exact Hok|]; intros o Ho; by apply (rop_ok f g Hfg)|]. split; [done|]. split; [done|]. split; by apply Hview.
Qed.
Print Assumptions C111_arrival_order.

(** Two accounts of two mints that the store has not heard of. *)
Definition us111 : list (acct * commitment) := [(tokd 77 1001 1002 6 10 2, Processed); (tokd 78 1003 1002 7 10 3, Confirmed)].
Definition l111 : list tsop := [TInit (mintd 1001 50 1 1); TInit (mintd 1003 60 1 1); TSlot ord0 (SlotInfo 10 9 0) Confirmed; TSlot ord0 (SlotInfo 10 9 0) Finalized].
Definition heard111 (us : list (acct * commitment)) : list answer := match hears E0 X0 (final (ups us)) l111 with Done (_, x) => x | Panic => [] end.
Example C111_arrival_example : ops_ok l111 /\ us111 ≡ₚ reverse us111 /\ Forall (fun u => u.2 <> Finalized /\ d_pubkey u.1 < 2 ^ 256 /\ (d_owner u.1 = spl_token_id \/ d_owner u.1 = spl_2022_id)) us111 /\ one_version us111 /\
  ts_run E0 X0 ts_empty (ups us111) = Done (final (ups us111)) /\ ts_mint_ix (final (ups us111)) !! 1001 = Some 0 /\ ts_mint_ix (final (ups (reverse us111))) !! 1001 = Some 1 /\
  ts_ctr (final (ups us111 ++ l111)) <= 2 ^ 32 /\ length (heard111 us111) = 4%nat /\
  ts_get (final (ups us111 ++ l111)) 78 Finalized = Done (ROk (Some (tokd 78 1003 1002 7 10 0))) /\ ts_get (final (ups (reverse us111) ++ l111)) 78 Finalized = Done (ROk (Some (tokd 78 1003 1002 7 10 0))).
Proof.
  split; [repeat (apply Forall_cons_2; [try done; intros m; done|]); by apply Forall_nil_2|]. split; [apply Permutation_swap|]. split; [unfold us111; repeat (apply Forall_cons_2; [split; [done|split; [done|by left]]|]); by apply Forall_nil_2|].
  split; [intros u v Hu Hv H1 H2 H3; unfold us111 in Hu, Hv; rewrite !elem_of_cons, elem_of_nil in Hu, Hv; destruct_or?; subst; try done|]. split; [apply final_run; by vm_compute|].
  split; [by vm_compute|]. split; [by vm_compute|]. split; [by vm_compute|]. split; [by vm_compute|]. split; by vm_compute.
Qed.
(** Snapshots are apart for a reason: the data of a mint that is known is stored under the number it had in the snapshot.  After one order a read of another mint returns that data. *)
Theorem C111_load_refuted : exists X us l n c ts1 ts2 r1 r2, lawful X /\ Forall may_come us /\ one_version us /\ ops_ok l /\
  ts_load X (final (ups us ++ l)) spl_token_id (le 4 n ++ c) = Done (ts1, ROk tt) /\ ts_load X (final (ups (reverse us) ++ l)) spl_token_id (le 4 n ++ c) = Done (ts2, ROk tt) /\
  ts_get ts1 1003 Finalized = Done (ROk (Some r1)) /\ d_pubkey r1 = 1003 /\ ts_get ts2 1003 Finalized = Done (ROk (Some r2)) /\ d_pubkey r2 = 1001.
Proof.
  set (l := [TInit (mintd 1001 50 1 1); TInit (mintd 1003 60 1 1)]). set (la := [TInit (mintd 1001 50 1 1)]).
  exists XS, us111, l, 4096, (snap_of la), (load_into (final (ups us111 ++ l)) la), (load_into (final (ups (reverse us111) ++ l)) la). eexists _, _.
  split; [exact sample_lawful|]. split; [apply C111_arrival_example|]. split; [apply C111_arrival_example|]. split; [repeat (apply Forall_cons_2; [done|]); by apply Forall_nil_2|].
  split; [apply load_ok; by vm_compute|]. split; [apply load_ok; by vm_compute|]. split; [by vm_compute|]. split; [by vm_compute|]. split; by vm_compute.
Qed.
Print Assumptions C111_load_refuted.
(** An account that left the token program: it is of interest only after an account has named it as a mint. *)
Theorem C111_owner_refuted : exists u v l, one_version [u; v] /\ u.2 <> Finalized /\ v.2 <> Finalized /\ may_come u /\ ran (ups [u; v] ++ l) = true /\ ran (ups [v; u] ++ l) = true /\
  ts_get (final (ups [u; v] ++ l)) 1001 Processed = Done (ROk None) /\ ts_get (final (ups [v; u] ++ l)) 1001 Processed = Done (ROk (Some (mintd 1001 50 0 0))).
Proof.
  exists (tokd 77 1001 1002 6 10 2, Processed), (closed 1001 10 3, Processed), [TInit (mintd 1001 50 1 1)].
  split; [intros u v Hu Hv H1 H2 H3; rewrite !elem_of_cons, elem_of_nil in Hu, Hv; destruct_or?; subst; try done|]. split; [done|]. split; [done|]. split; [split; [done|split; [done|by left]]|].
  split; [by vm_compute|]. split; [by vm_compute|]. split; by vm_compute.
Qed.
Print Assumptions C111_owner_refuted.

(** ** Updates of mints never seen before and slot notifications *)
Lemma mint_index_again m ix ctr i ix' ctr' : mint_index m ix ctr = (i, ix', ctr') -> mint_index m ix' ctr' = (i, ix', ctr').
Proof. unfold mint_index. destruct (ix !! m) as [j|] eqn:H; intros [= <- <- <-]; [by rewrite H|]. by rewrite lookup_insert. Qed.
(** The update numbers the mint first and then does what it does in a store where the mint has the number. *)
Lemma number_first E ts a c : token_owned a -> c <> Finalized -> exists ix ctr,
  (forall p d, ts_update E (set_pend (set_conf ts d) p) a c = ts_update E (set_pend (set_conf (set_ix ts ix ctr) d) p) a c) /\
  (forall p d, ts_update E (set_pend (set_conf (set_ix ts ix ctr) d) p) a c = (o ← read_as E (set_ix ts ix ctr) a; Done (put (set_pend (set_conf (set_ix ts ix ctr) d) p) a o))).
Proof.
  intros Ho Hc. destruct (account_reading E a) as [k Hk].
  assert (forall t, ts_update E t a c = (o ← k; match as_read o a (ts_mint_ix t) (ts_ctr t) with None => Done (t, false) | Some (ty, ix, ctr) => Done (put (set_ix t ix ctr) a (Some ty)) end)) as Hup.
  { intros t. unfold ts_update. rewrite (owner_is_token t a Ho). cbn [mbind res_bind]. rewrite Hk. destruct k as [o|]; cbn [mbind res_bind]; [|done]. destruct (as_read o a _ _) as [[[ty ix] ctr]|]; [|done]. cbn [put]. destruct (pd_insert _ _ _ _ _) as [p b]. by destruct c. }
  assert (forall t, read_as E t a = (o ← k; Done (match as_read o a (ts_mint_ix t) (ts_ctr t) with Some (ty, _, _) => Some ty | None => None end))) as Hread.
  { intros t. unfold read_as. rewrite (owner_is_token t a Ho). cbn [mbind res_bind]. rewrite Hk. by destruct k. }
  assert (set_ix ts (ts_mint_ix ts) (ts_ctr ts) = ts) as Hid by (by destruct ts). assert (forall p d, set_ix (set_pend (set_conf ts d) p) (ts_mint_ix ts) (ts_ctr ts) = set_pend (set_conf ts d) p) as Hidp by (by destruct ts).
  destruct k as [[[ty|[[pr s] x]]|]|].
  - exists (ts_mint_ix ts), (ts_ctr ts). rewrite Hid. split; intros p d; [done|]. rewrite Hup, Hread. cbn [mbind res_bind as_read]. cbn [ts_mint_ix ts_ctr set_pend set_conf]. by rewrite Hidp.
  - destruct (mint_index (sa_mint s) (ts_mint_ix ts) (ts_ctr ts)) as [[i ix] ctr] eqn:Hm. pose proof (mint_index_again _ _ _ _ _ _ Hm) as Hm'. exists ix, ctr. split; intros p d.
    + rewrite !Hup. cbn [mbind res_bind as_read]. cbn [ts_mint_ix ts_ctr set_pend set_conf set_ix]. rewrite Hm, Hm'. done.
    + rewrite !Hup, Hread. cbn [mbind res_bind as_read]. cbn [ts_mint_ix ts_ctr set_pend set_conf set_ix]. rewrite Hm'. done.
  - exists (ts_mint_ix ts), (ts_ctr ts). rewrite Hid. split; intros p d; [done|]. by rewrite Hup, Hread.
  - exists (ts_mint_ix ts), (ts_ctr ts). rewrite Hid. split; intros p d; [done|]. by rewrite Hup, Hread.
Qed.
(** An update of an account of a token program, its mint seen before or not, and a processed or confirmed notification of another slot: same answers, same reports, same state. *)
Theorem C111_overtake : forall E X l ts a c ord si k,
  ts_run E X ts_empty l = Done ts -> c <> Finalized -> k <> Finalized -> d_owner a = spl_token_id \/ d_owner a = spl_2022_id -> d_slot a <> si_slot si ->
  ('(s1, r) ← ts_update E ts a c; '(s2, rep) ← ts_slot ord s1 si k; Done (s2, r, rep)) = ('(t1, rep) ← ts_slot ord ts si k; '(t2, r) ← ts_update E t1 a c; Done (t2, r, rep)).
Proof.
  intros E X l ts a c ord si k Hl Hc Hk Ho Hne. destruct (number_first E ts a c Ho Hc) as (ix & ctr & H1 & H2).
  assert (set_pend (set_conf ts (ts_conf ts)) (ts_pend ts) = ts) as Hid by (by destruct ts).
  pose proof (overtake_sorted E (set_ix ts ix ctr) a c ord si k) as Hn. cbn [ts_pend set_ix] in Hn. specialize (Hn ltac:(apply (run_sorted _ _ _ _ _ Hl); constructor) Hk H2 Hne).
  assert (ts_update E ts a c = ts_update E (set_ix ts ix ctr) a c) as -> by (rewrite <- Hid at 1; rewrite H1; by destruct ts). rewrite Hn. destruct k; [| |done]; cbn [ts_slot].
  - cbn [mbind res_bind]. change (set_pend ts (pd_slot_info (ts_pend ts) si)) with (set_pend (set_conf ts (ts_conf ts)) (pd_slot_info (ts_pend ts) si)). by rewrite H1.
  - cbn [ts_conf set_ix]. destruct (ts_conf ts <? si_slot si); cbn [ts_pend ts_mints set_pend set_conf set_ix]; destruct (pd_for_slot _ _ _) as [[q rep]|]; cbn [mbind res_bind]; try done.
    + change (set_pend (set_pend (set_conf ts (si_slot si)) (pd_slot_info (ts_pend ts) si)) q) with (set_pend (set_conf ts (si_slot si)) q). by rewrite H1.
    + change (set_pend ts q) with (set_pend (set_conf ts (ts_conf ts)) q). by rewrite H1.
Qed.
Print Assumptions C111_overtake.
Example C111_overtake_example : ran (ups us111) = true /\ ts_update E0 (final (ups us111)) (tokd 79 1004 1002 8 11 4) Processed <> Panic /\ ts_mint_ix (final (ups us111)) !! 1004 = None /\
  d_owner (tokd 79 1004 1002 8 11 4) = spl_token_id /\ d_slot (tokd 79 1004 1002 8 11 4) <> si_slot (SlotInfo 10 9 0) /\
  ts_mint_ix (final (ups us111 ++ [TUpdate (tokd 79 1004 1002 8 11 4) Processed; TSlot ord0 (SlotInfo 10 9 0) Processed])) !! 1004 = Some 2.
Proof. split; [by vm_compute|]. split; [by vm_compute|]. split; [by vm_compute|]. split; [done|]. split; [done|]. by vm_compute. Qed.
