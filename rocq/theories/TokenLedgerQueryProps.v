(** Token accounts and the ledger: what program queries answer on orderly streams (C93). *)
From Verif Require Import Base SMap DataModel BincodeModel BincodeProofs FilterModel StoreModel TokenModel TokenProofs TokenProps SplModel SplProofs TokenUtilsModel
  TokenUtilsProofs TokenPendModel TokenPendSpec TokenPendProofs TokenPendProps TokenUtilsProps TokenStoreModel TokenStoreSpec TokenStoreProofs TokenStoreViews TokenStoreProps TokenStoreOrder
  TokenStoreQuery TokenStoreQueryProps TokenStoreSafe TokenStoreServed TokenSnapProps TokenLedgerSpec TokenLedgerProofs TokenLedgerKey TokenLedgerProps TokenLedgerEdge.
#[local] Arguments le : simpl never.
#[local] Arguments unle : simpl never.
#[local] Opaque to_bytes from_bytes peek_pubkey.

(** ** Specification *)
(** The version is an open token account of the owner [o] and, when given, the mint [mo]. *)
Definition holds_for (E : ext) (a : acct) (o : option pubkey) (mo : option pubkey) : Prop :=
  exists p v r, live_with E a p v /\ unpack_account v = Some r /\ (forall q, o = Some q -> sa_owner r = q) /\ (forall m, mo = Some m -> sa_mint r = m).
(** The conditions of C92 for every token account. *)
Definition all_keys (E : ext) (l : list tsop) (L : tledger) : Prop := forall pk, token_key E l pk -> token_account_key E l pk /\ mints_known E l L pk.
Definition mint_known (E : ext) (l : list tsop) (L : tledger) (q : pubkey) : Prop :=
  (forall o b, o ∈ l -> op_acct o = Some b -> d_pubkey b = q -> exists p w, live_with E b p w /\ is_Some (unpack_mint w)) /\ exists m, tcounts L Finalized m /\ d_pubkey m = q.
(** The versions of an account differ in slot or write version. *)
Definition told_apart (L : tledger) : Prop :=
  forall a b, a ∈ tl_base L ++ tl_writes L -> b ∈ tl_base L ++ tl_writes L -> d_pubkey a = d_pubkey b -> d_slot a = d_slot b -> d_wv a = d_wv b -> a = b.
(** The answer [r] shows the ledger: each account once; every answer is the newest version that counts, open and of that owner and mint; and every
    such version is answered, provided the account is open in the finalized ledger. *)
Definition shows_ledger (E : ext) (L : tledger) (c : commitment) (o mo : option pubkey) (r : list acct) : Prop :=
  NoDup (d_pubkey <$> r) /\
  (forall b, b ∈ r -> exists a, in_tledger L (d_pubkey b) c (Some a) /\ holds_for E a o mo /\ answers E L (Some a) (Some b)) /\
  (forall pk f a, in_tledger L pk Finalized (Some f) -> ~ closed f -> in_tledger L pk c (Some a) -> holds_for E a o mo -> exists b, b ∈ r /\ d_pubkey b = pk).

(** ** Pending versions of several keys *)
Lemma opt_same {A} (P : A -> Prop) (g g1 : option A) : (forall x, g = Some x <-> P x) -> (forall x, g1 = Some x <-> P x) -> g1 = g.
Proof. intros H H1. apply option_eq. intros x. by rewrite H, H1. Qed.
Lemma read_pointwise p pks c conf r i pk r1 : sm_sorted p -> c <> Finalized -> pd_get p pks c conf = Done r -> pks !! i = Some pk -> pd_get p [pk] c conf = Done r1 ->
  exists g, r !! i = Some g /\ head r1 = Some g.
Proof.
  intros Hs Hc Hr Hi Hr1. destruct c; [| |done].
  - destruct (proc_read_spec _ _ _ _ Hs Hr i pk Hi) as (g & Hg & H). destruct (proc_read_spec _ _ _ _ Hs Hr1 0%nat pk eq_refl) as (g1 & Hg1 & H1). exists g. split; [done|].
    rewrite (opt_same _ g g1 H H1) in Hg1. by destruct r1.
  - destruct (conf_read_spec _ _ _ _ Hs Hr) as [_ H0]. destruct (H0 i pk Hi) as (g & Hg & H). destruct (conf_read_spec _ _ _ _ Hs Hr1) as [_ H2]. destruct (H2 0%nat pk eq_refl) as (g1 & Hg1 & H1). exists g. split; [done|].
    rewrite (opt_same _ g g1 H H1) in Hg1. by destruct r1.
Qed.

(** One element of the overlay. *)
Definition over (mints : gmap N mint_account) (a : acct) (o : option (pacct * N)) : res (option acct) :=
  match o with Some ((ty, wv), slot) => tpa_to_acct ty slot wv mints | None => Done (Some a) end.
Lemma overlay_spec mints l ps r : length ps = length l -> overlay mints l ps = Done r ->
  (forall b, b ∈ r <-> exists i a o, l !! i = Some a /\ ps !! i = Some o /\ over mints a o = Done (Some b)) /\
  ((forall i a o b, l !! i = Some a -> ps !! i = Some o -> over mints a o = Done (Some b) -> d_pubkey b = d_pubkey a) -> NoDup (d_pubkey <$> l) -> NoDup (d_pubkey <$> r)).
Proof.
  revert ps r. induction l as [|a l IH]; intros [|o ps] r Hlen H; try done.
  { simpl in H. injection H as <-. split; [|done]. intros b. split; [intros Hb; by apply elem_of_nil in Hb|]. by intros (i & a & o & Ha & _). }
  simpl in H. injection Hlen as Hlen. change (match o with Some (ty, wv, slot) => tpa_to_acct ty slot wv mints | None => Done (Some a) end) with (over mints a o) in H.
  destruct (over mints a o) as [x|] eqn:Ho; [|done]. cbn [mbind res_bind] in H. destruct (overlay mints l ps) as [r0|] eqn:Hr; [|done]. cbn [mbind res_bind] in H. injection H as <-.
  destruct (IH ps r0 Hlen Hr) as [I1 I2].
  assert (forall b, b ∈ match x with Some y => y :: r0 | None => r0 end <-> x = Some b \/ b ∈ r0) as Hx.
  { intros b. destruct x as [y|]; [rewrite elem_of_cons|]; naive_solver. }
  split.
  - intros b. rewrite Hx, I1. split.
    + intros [->|(i & a' & o' & H1 & H2 & H3)]; [by exists 0%nat, a, o|by exists (S i), a', o'].
    + intros (i & a' & o' & H1 & H2 & H3). destruct i as [|i]; simpl in H1, H2; [left; simplify_eq; congruence|right; by exists i, a', o'].
  - intros Hk Hnd. simpl in Hnd. apply NoDup_cons in Hnd as [Hn Hnd]. assert (NoDup (d_pubkey <$> r0)) as Hr0 by (apply I2; [|done]; intros i; by apply (Hk (S i))).
    destruct x as [y|]; [|done]. simpl. apply NoDup_cons. split; [|done]. rewrite (Hk 0%nat a o y eq_refl eq_refl Ho). intros Hin. apply Hn.
    apply elem_of_list_fmap in Hin as (b & Hb & Hbr). apply I1 in Hbr as (i & a' & o' & H1 & H2 & H3). rewrite Hb, (Hk (S i) a' o' b H1 H2 H3). apply elem_of_list_fmap. exists a'. split; [done|by eapply elem_of_list_lookup_2].
Qed.
(** Conversions at two write versions differ in nothing else. *)
Definition but_wv (x y : option acct) : Prop :=
  match x, y with
  | None, None => True
  | Some a, Some b => d_pubkey a = d_pubkey b /\ d_owner a = d_owner b /\ d_data a = d_data b /\ d_slot a = d_slot b
  | _, _ => False
  end.
Lemma tpa_wv ty slot w w' mints x : tpa_to_acct ty slot w mints = Done x -> exists y, tpa_to_acct ty slot w' mints = Done y /\ but_wv x y.
Proof.
  destruct ty as [t|m|m pk|pk]; simpl; intros H.
  - unfold token_to_acct in *. destruct (ta_deleted t); [injection H as <-; by exists None|]. destruct (mints !! ta_mint t) as [m|]; [|done]. cbn [unwrap mbind res_bind] in *.
    injection H as <-. eexists. split; [done|]. by split_and!.
  - injection H as <-. eexists. split; [done|]. by split_and!.
  - unfold multisig_to_acct in *. repeat case_match; try done; cbn [mbind res_bind] in *; simplify_eq; eexists; (split; [done|]); by split_and!.
  - injection H as <-. by exists None.
Qed.
Lemma answers_wv E L o x y : but_wv x y -> answers E L o x -> answers E L o y.
Proof.
  intros Hb Ha. destruct o as [a|]; [|simpl in *; subst x; by destruct y]. destruct Ha as [[H1 ->]|[H1 (b & -> & H2 & H3 & H4 & H5)]].
  - left. split; [done|]. by destruct y.
  - right. split; [done|]. destruct y as [y|]; [|done]. destruct Hb as (B1 & B2 & B3 & B4). exists y. rewrite <- B1, <- B2, <- B3, <- B4. done.
Qed.

(** ** The answers *)
Lemma in_stream E l L : t_orderly E l L -> forall a, a ∈ tl_base L \/ a ∈ tl_writes L -> exists o, o ∈ l /\ op_acct o = Some a.
Proof.
  induction 1 as [|l L o L' Ho IH Hev]; intros a Ha; [destruct Ha as [Ha|Ha]; by apply elem_of_nil in Ha|].
  assert (a ∈ tl_base L \/ a ∈ tl_writes L \/ op_acct o = Some a) as Hc.
  { destruct Hev; simpl in *; try tauto; rewrite ?elem_of_app, ?elem_of_list_singleton, ?elem_of_nil in Ha; naive_solver. }
  assert (o ∈ l ++ [o]) as Hin by (apply elem_of_app; right; left).
  destruct Hc as [Hc|[Hc|Hc]]; [| |by exists o].
  - destruct (IH a) as (o' & ? & ?); [by left|]. exists o'. split; [apply elem_of_app; by left|done].
  - destruct (IH a) as (o' & ? & ?); [by right|]. exists o'. split; [apply elem_of_app; by left|done].
Qed.
Lemma ledger_stream E l L pk c a : t_orderly E l L -> in_tledger L pk c (Some a) -> exists o, o ∈ l /\ op_acct o = Some a /\ d_pubkey a = pk.
Proof.
  intros Ho [[Ha Hk] _]. destruct (in_stream E l L Ho a) as (o & ? & ?); [destruct Ha as [?|[? _]]; tauto|]. by exists o.
Qed.
Lemma live_token E o a p v r : op_acct o = Some a -> live_with E a p v -> unpack_account v = Some r -> op_token E o (d_pubkey a) r.
Proof. intros Ho [_ _ H _] Hu. by exists a, v. Qed.
Lemma in_tledger_fun L pk c a a' : in_tledger L pk c (Some a) -> in_tledger L pk c (Some a') -> d_slot a = d_slot a' /\ d_wv a = d_wv a'.
Proof. intros [[H1 H2] H3] [[H1' H2'] H3']. destruct (H3 _ H1' H2') as [?|[? ?]], (H3' _ H1 H2) as [?|[? ?]]; lia. Qed.
(** The bytes of a token account the store keeps. *)
Lemma clean_bytes v r : clean_token v -> unpack_account v = Some r -> take 32 v = le 32 (sa_mint r) /\ take 32 (drop 32 v) = le 32 (sa_owner r) /\ sa_owner r < 2 ^ 256 /\ sa_mint r < 2 ^ 256.
Proof.
  intros (r' & Hr' & -> & _) Hu. rewrite unpack_pack_account in Hu by done. injection Hu as ->. destruct Hr' as (H1 & H2 & _). split_and!; [| |done|done]; unfold pack_account.
  - rewrite take_app_le by (rewrite le_length; lia). apply take_ge. rewrite le_length. simpl. lia.
  - rewrite drop_app_alt by (by rewrite le_length). rewrite take_app_le by (rewrite le_length; lia). apply take_ge. rewrite le_length. simpl. lia.
Qed.

Section answers.
Context (E : ext) (X : lz4x) (l : list tsop) (L : tledger) (ts : tstore).
Context (Hord : t_orderly E l L) (Hok : ops_ok l) (Hrun : ts_run E X ts_empty l = Done ts) (Hc : ts_ctr ts <= 2 ^ 32) (Htd : tidy E l) (Hall : all_keys E l L).

Lemma ledger_read pk c : token_key E l pk -> exists o x, in_tledger L pk c o /\ ts_get ts pk c = Done (ROk x) /\ answers E L o x.
Proof. intros Hk. destruct (Hall pk Hk) as [H1 H2]. by eapply C92_token_reads_show_ledger. Qed.
Lemma told_fun : told_apart L -> forall pk c a a', in_tledger L pk c (Some a) -> in_tledger L pk c (Some a') -> a = a'.
Proof.
  intros Ht pk c a a' H H'. destruct (in_tledger_fun _ _ _ _ _ H H') as [H1 H2]. destruct H as [[Ha Hk] _], H' as [[Ha' Hk'] _].
  apply Ht; [apply elem_of_app; destruct Ha as [?|[? _]]; tauto|apply elem_of_app; destruct Ha' as [?|[? _]]; tauto|congruence|done|done].
Qed.
(** An open version of a token account. *)
Lemma open_token pk c a : token_key E l pk -> in_tledger L pk c (Some a) -> ~ closed a -> exists o p v r, o ∈ l /\ live_with E a p v /\ clean_token v /\ unpack_account v = Some r /\ op_token E o pk r.
Proof.
  intros Hk Ha Hn. destruct (ledger_stream E l L pk c a Hord Ha) as (o & Ho & Hoa & Hak). destruct (Hall pk Hk) as [H1 _].
  destruct (tk_kind _ _ _ (tk_here _ _ _ H1) o a Ho Hoa Hak) as [?|(p & v & r & Hl & Hcl & Hu)]; [done|]. exists o, p, v, r. split_and!; try done. rewrite <- Hak. by eapply live_token.
Qed.
Definition asks (o mo : option pubkey) (v : bytes) : Prop := (forall q, o = Some q -> take 32 (drop 32 v) = le 32 q) /\ (forall m, mo = Some m -> take 32 v = le 32 m).

(** From a finalized query to the query at any commitment. *)
Lemma query_core p cs c o mo l0 : (forall q, o = Some q -> q < 2 ^ 256) -> (forall m, mo = Some m -> m < 2 ^ 256) -> (o = None \/ keeps_owner E l) -> (mo = None \/ keeps_mint E l) ->
  ts_gpa E ts p (Some cs) Finalized = Done (ROk l0) -> NoDup (d_pubkey <$> l0) ->
  (forall b, b ∈ l0 <-> exists pk v, token_key E l pk /\ ts_get ts pk Finalized = Done (ROk (Some b)) /\ d_data b = DRaw v /\ asks o mo v) ->
  exists r, ts_gpa E ts p (Some cs) c = Done (ROk r) /\ NoDup (d_pubkey <$> r) /\
    (forall b, b ∈ r -> exists a, in_tledger L (d_pubkey b) c (Some a) /\ holds_for E a o mo /\ answers E L (Some a) (Some b)) /\
    (told_apart L -> forall pk f a, in_tledger L pk Finalized (Some f) -> ~ closed f -> in_tledger L pk c (Some a) -> holds_for E a o mo -> exists b, b ∈ r /\ d_pubkey b = pk).
Proof.
  intros Hbo Hbm Hko Hkm Hq Hnd Hel. destruct (orderly_run E X l L ts Hord Hok Hrun Hc) as (I1 & I2 & I3 & I4). pose proof (ti_sorted _ I3) as Hs.
  (* the finalized version behind an answer *)
  assert (forall pk b, ts_get ts pk Finalized = Done (ROk (Some b)) -> token_key E l pk -> d_pubkey b = pk /\ exists f, in_tledger L pk Finalized (Some f) /\ ~ closed f /\ data_bytes E (d_data b) = data_bytes E (d_data f)) as Hfin.
  { intros pk b Hg Hk. destruct (ledger_read pk Finalized Hk) as (of & x & Hof & Hx & Hax). rewrite Hg in Hx. injection Hx as <-. destruct of as [f|]; [|done].
    destruct Hax as [[_ ?]|[Hn (b' & [= <-] & Hbk & _ & Hbd & _)]]; [done|]. split; [rewrite Hbk; by destruct Hof as [[_ ?] _]|]. by exists f. }
  (* versions of one token account ask the same *)
  assert (forall pk c1 c2 f a v, token_key E l pk -> in_tledger L pk c1 (Some f) -> ~ closed f -> in_tledger L pk c2 (Some a) -> ~ closed a -> data_bytes E (d_data f) = Done v ->
    asks o mo v <-> holds_for E a o mo) as Hsame.
  { intros pk c1 c2 f a v Hk Hf Hnf Ha Hna Hv. destruct (open_token pk c1 f Hk Hf Hnf) as (of & pf & vf & rf & Hof & Hlf & Hcf & Huf & Htf).
    destruct (open_token pk c2 a Hk Ha Hna) as (oa & pa & va & ra & Hoa & Hla & Hca & Hua & Hta). rewrite (lw_data _ _ _ _ Hlf) in Hv. injection Hv as ->.
    destruct (clean_bytes _ _ Hcf Huf) as (B1 & B2 & B3 & B4). unfold asks. rewrite B1, B2. split.
    - intros [A1 A2]. exists pa, va, ra. split_and!; try done.
      + intros q Hqo. destruct Hko as [?|Hko]; [congruence|]. rewrite <- (Hko of oa pk rf ra Hof Hoa Htf Hta). apply le32_inj; [done|by apply Hbo|by apply A1].
      + intros m Hm. destruct Hkm as [?|Hkm]; [congruence|]. rewrite <- (Hkm of oa pk rf ra Hof Hoa Htf Hta). apply le32_inj; [done|by apply Hbm|by apply A2].
    - intros (p' & v' & r' & Hl' & Hu' & A1 & A2). pose proof (lw_data _ _ _ _ Hl') as Hd'. rewrite (lw_data _ _ _ _ Hla) in Hd'. injection Hd' as <-. rewrite Hua in Hu'. injection Hu' as <-. split.
      + intros q Hqo. destruct Hko as [?|Hko]; [congruence|]. rewrite (Hko of oa pk rf ra Hof Hoa Htf Hta). by rewrite (A1 q Hqo).
      + intros m Hm. destruct Hkm as [?|Hkm]; [congruence|]. rewrite (Hkm of oa pk rf ra Hof Hoa Htf Hta). by rewrite (A2 m Hm). }
  (* the pending version replaces the finalized one as in a read *)
  assert (c <> Finalized -> exists ps, pd_get (ts_pend ts) (d_pubkey <$> l0) c (ts_conf ts) = Done ps /\ length ps = length l0 /\
    forall i b g, l0 !! i = Some b -> ps !! i = Some g -> exists x y, over (ts_mints ts) b g = Done y /\ ts_get ts (d_pubkey b) c = Done (ROk x) /\ but_wv x y) as Hps.
  { intros Hcf. destruct (reads_end (ts_pend ts) (d_pubkey <$> l0) c (ts_conf ts)) as [ps Hps]; [done|done|by apply before_acyclic|]. exists ps. split; [done|].
    split; [by rewrite (read_length _ _ _ _ _ Hps), fmap_length|]. intros i b g Hb Hg.
    assert ((d_pubkey <$> l0) !! i = Some (d_pubkey b)) as Hi by (by rewrite list_lookup_fmap, Hb).
    destruct (reads_end (ts_pend ts) [d_pubkey b] c (ts_conf ts)) as [r1 Hr1]; [done|done|by apply before_acyclic|].
    destruct (read_pointwise _ _ _ _ _ _ _ _ Hs Hcf Hps Hi Hr1) as (g' & Hg' & Hh). rewrite Hg in Hg'. injection Hg' as <-.
    pose proof (proj1 (Hel b) (elem_of_list_lookup_2 _ _ _ Hb)) as (pk & v & Hk & Hget & _). destruct (Hfin pk b Hget Hk) as [<- _].
    destruct (ledger_read (d_pubkey b) c Hk) as (o' & x & _ & Hx & _). exists x.
    assert (ts_get ts (d_pubkey b) c = match g with Some ((ty, _), slot) => x ← tpa_to_acct ty slot 0 (ts_mints ts); Done (ROk x) | None => x ← get_fin ts (d_pubkey b); Done (ROk x) end) as He.
    { unfold ts_get. destruct c; [| |done]; rewrite Hr1; cbn [mbind res_bind]; rewrite Hh; done. }
    rewrite He in Hx. destruct g as [[[ty w] s]|].
    - destruct (tpa_to_acct ty s 0 (ts_mints ts)) as [x'|] eqn:Hx'; [|done]. cbn [mbind res_bind] in Hx. injection Hx as ->. destruct (tpa_wv ty s 0 w _ _ Hx') as (y & Hy & Hbw).
      exists y. split; [done|]. split; [|done]. by rewrite He.
    - exists (Some b). split; [done|]. rewrite He. split; [done|]. unfold ts_get in Hget. destruct (get_fin ts (d_pubkey b)) as [z|]; [|done]. cbn [mbind res_bind] in Hget, Hx. simplify_eq. by simpl. }
  assert (forall b, b ∈ l0 -> token_key E l (d_pubkey b) /\ ts_get ts (d_pubkey b) Finalized = Done (ROk (Some b))) as Hl0.
  { intros b Hb. pose proof (proj1 (Hel b) Hb) as (pk & v & Hk & Hget & _). by destruct (Hfin pk b Hget Hk) as [-> _]. }
  assert (exists r, ts_gpa E ts p (Some cs) c = Done (ROk r) /\ NoDup (d_pubkey <$> r) /\
    (forall b, b ∈ r -> exists b0 x, b0 ∈ l0 /\ ts_get ts (d_pubkey b0) c = Done (ROk x) /\ but_wv x (Some b)) /\
    (forall b0 x, b0 ∈ l0 -> ts_get ts (d_pubkey b0) c = Done (ROk (Some x)) -> exists b, b ∈ r /\ but_wv (Some x) (Some b))) as (r & Hr & Hndr & R1 & R2).
  { destruct (decide (c = Finalized)) as [->|Hcf].
    - exists l0. split; [done|]. split; [done|]. split.
      + intros b Hb. exists b, (Some b). split; [done|]. split; [by apply Hl0|]. by simpl.
      + intros b x Hb Hx. destruct (Hl0 b Hb) as [_ Hg]. rewrite Hg in Hx. injection Hx as <-. exists b. split; [done|]. by simpl.
    - destruct (Hps Hcf) as (ps & Hp & Hlen & Hov).
      assert (forall l1 ps1, length ps1 = length l1 -> (forall i b g, l1 !! i = Some b -> ps1 !! i = Some g -> exists y, over (ts_mints ts) b g = Done y) -> exists r, overlay (ts_mints ts) l1 ps1 = Done r) as Hdone.
      { clear. induction l1 as [|a l1 IH]; intros [|o ps] Hlen H; try done; [by exists []|]. injection Hlen as Hlen. simpl. destruct (H 0%nat a o eq_refl eq_refl) as [y Hy].
        change (match o with Some (ty, wv, slot) => tpa_to_acct ty slot wv (ts_mints ts) | None => Done (Some a) end) with (over (ts_mints ts) a o). rewrite Hy. cbn [mbind res_bind].
        destruct (IH ps Hlen) as [r Hr]; [intros i; by apply (H (S i))|]. rewrite Hr. cbn [mbind res_bind]. eauto. }
      destruct (Hdone l0 ps Hlen) as [r Hr]. { intros i b g Hb Hg. destruct (Hov i b g Hb Hg) as (x & y & Hy & _). eauto. }
      destruct (overlay_spec _ _ _ _ Hlen Hr) as [S1 S2]. exists r. split.
      { unfold ts_gpa in Hq |- *. destruct (_ && _); [done|]. destruct (gpa_fin E ts p (Some cs)) as [[l1|]|]; try done. cbn [mbind res_bind] in Hq |- *. injection Hq as ->.
        destruct c; [| |done]; rewrite Hp; cbn [mbind res_bind]; rewrite Hr; done. }
      assert (forall i b0 g b, l0 !! i = Some b0 -> ps !! i = Some g -> over (ts_mints ts) b0 g = Done (Some b) -> exists x, ts_get ts (d_pubkey b0) c = Done (ROk x) /\ but_wv x (Some b)) as Hone.
      { intros i b0 g b Hb0 Hg Hb. destruct (Hov i b0 g Hb0 Hg) as (x & y & Hy & Hx & Hbw). rewrite Hb in Hy. injection Hy as <-. by exists x. }
      split; [|split].
      + apply S2; [|done]. intros i b0 g b Hb0 Hg Hb. destruct (Hone i b0 g b Hb0 Hg Hb) as (x & Hx & Hbw). destruct x as [x|]; [|done]. destruct Hbw as (<- & _).
        destruct (Hl0 b0) as [Hk _]; [by eapply elem_of_list_lookup_2|]. destruct (ledger_read _ c Hk) as (o' & x' & Ho' & Hx' & Ha). rewrite Hx in Hx'. injection Hx' as <-.
        destruct o' as [a|]; [|done]. destruct Ha as [[_ ?]|[_ (b' & [= <-] & -> & _)]]; [done|]. by destruct Ho' as [[_ ?] _].
      + intros b Hb. apply S1 in Hb as (i & b0 & g & Hb0 & Hg & Hb). destruct (Hone i b0 g b Hb0 Hg Hb) as (x & Hx & Hbw). exists b0, x. split; [by eapply elem_of_list_lookup_2|done].
      + intros b0 x Hb0 Hx. apply elem_of_list_lookup in Hb0 as [i Hi]. destruct (lookup_lt_is_Some_2 ps i) as [g Hg]; [rewrite Hlen; by eapply lookup_lt_Some|].
        destruct (Hov i b0 g Hi Hg) as (x' & y & Hy & Hx' & Hbw). rewrite Hx in Hx'. injection Hx' as <-. destruct y as [b|]; [|done]. exists b. split; [|done]. apply S1. by exists i, b0, g. }
  exists r. split; [done|]. split; [done|]. split.
  - intros b Hb. destruct (R1 b Hb) as (b0 & x & Hb0 & Hx & Hbw). destruct x as [x|]; [|done]. destruct (Hl0 b0 Hb0) as [Hk Hg].
    destruct (ledger_read _ c Hk) as (o' & x' & Ho' & Hx' & Ha). rewrite Hx in Hx'. injection Hx' as <-. pose proof (answers_wv _ _ _ _ _ Hbw Ha) as Hab.
    destruct o' as [a|]; [|done]. pose proof Hab as [[_ ?]|[Hna (b' & [= <-] & Hbk & _)]]; [done|]. assert (d_pubkey a = d_pubkey b0) as Hak by (by destruct Ho' as [[_ ?] _]).
    exists a. rewrite Hbk, Hak. split; [done|]. split; [|done]. destruct (proj1 (Hel b0) Hb0) as (pk & v & Hk' & Hg' & Hv & Hasks). destruct (Hfin pk b0 Hg' Hk') as [Hpk (f & Hf & Hnf & Hd)].
    rewrite Hv in Hd. simpl in Hd. subst pk. by eapply Hsame.
  - intros Hta pk f a Hf Hnf Ha Hhold. assert (token_key E l pk /\ ~ closed a) as [Hk Hna].
    { destruct Hhold as (p' & v & r' & Hl & Hu & _). split; [|by eapply live_open]. destruct (ledger_stream E l L pk c a Hord Ha) as (o' & Ho' & Hoa & Hak). exists o', r'. split; [done|]. rewrite <- Hak. by eapply live_token. }
    destruct (ledger_read pk Finalized Hk) as (of & xf & Hof & Hxf & Haf). destruct of as [f'|]; [|destruct Hf as [[Hf1 Hf2] _]; by destruct (Hof f Hf1)].
    assert (f' = f) as -> by (by eapply told_fun). destruct Haf as [[? _]|[_ (b0 & -> & Hb0k & _ & Hb0d & _)]]; [done|]. assert (d_pubkey f = pk) as Hfk by (by destruct Hf as [[_ ?] _]).
    destruct (key_read E X l ts Hrun Hok Hc Htd pk (Some b0) Hk Hxf) as [[? _]|(i & t & b0' & [= <-] & Hat & Ht)]; [done|].
    destruct (ti_tokens _ I3 i t (proj1 Hat) (ti_live _ I3 _ _ _ Hat)) as [_ Hx0]. destruct (token_bytes _ _ _ _ _ Hx0 Ht) as (mm & v & _ & Hv & _).
    assert (b0 ∈ l0) as Hb0. { apply Hel. exists pk, v. split; [done|]. split; [done|]. split; [done|]. eapply (Hsame pk Finalized c f a); try done. rewrite <- Hb0d, Hv. done. }
    destruct (ledger_read pk c Hk) as (o' & x & Ho' & Hx & Hax). destruct o' as [a'|]; [|destruct Ha as [[Ha1 Ha2] _]; by destruct (Ho' a Ha1)].
    assert (a' = a) as -> by (by eapply told_fun). destruct Hax as [[? _]|[_ (b1 & -> & Hb1k & _)]]; [done|].
    destruct (R2 b0 b1 Hb0) as (b & Hb & Hbw & _); [by rewrite Hb0k, Hfk|]. exists b. split; [done|]. rewrite <- Hbw, Hb1k. by destruct Ha as [[_ ?] _].
Qed.
(** Finalized queries are answered. *)
Lemma stored_mint i t : (forall i t, stored (ts_table ts) i t -> ta_deleted t = false -> at_pos (ts_table ts) (ta_pubkey t) i t) ->
  (forall pk i t, at_pos (ts_table ts) pk i t -> token_key E l pk) -> stored (ts_table ts) i t -> ta_deleted t = false -> is_Some (ts_mints ts !! ta_mint t).
Proof.
  intros Hlv Hkey Hst Hd. destruct (orderly_run E X l L ts Hord Hok Hrun Hc) as (I1 & I2 & I3 & I4). pose proof (Hlv _ _ Hst Hd) as Hat. pose proof (Hkey _ _ _ Hat) as Hk.
  destruct (ledger_read _ Finalized Hk) as (o & x & _ & Hx & _). destruct (key_read E X l ts Hrun Hok Hc Htd _ x Hk Hx) as [[_ Hn]|(i' & t' & b & -> & Hat' & Ht)]; [by destruct (Hn i t)|].
  destruct (at_pos_fun _ _ _ _ _ _ (ti_table _ I3) Hat Hat') as [-> ->]. apply token_to_acct_some in Ht as (_ & _ & m & Hm & _). eauto.
Qed.
Lemma index_done (S : gset nat) : (forall i t, stored (ts_table ts) i t -> ta_deleted t = false -> is_Some (ts_mints ts !! ta_mint t)) ->
  exists lt, tb_by_index (ts_table ts) S = Done lt /\ forall t, t ∈ lt -> ta_deleted t = false -> is_Some (ts_mints ts !! ta_mint t).
Proof.
  intros Hm. destruct (orderly_run E X l L ts Hord Hok Hrun Hc) as (I1 & I2 & I3 & I4). unfold tb_by_index.
  destruct (from_all_spec (ts_table ts) (elements S) (ti_table _ I3) (NoDup_elements _)) as (js & lt & Hl & _ & _ & Hf2 & _).
  exists lt. split; [done|]. intros t Ht Hd. apply elem_of_list_lookup in Ht as [k Hk]. destruct (Forall2_lookup_r _ _ _ _ _ Hf2 Hk) as (j & _ & Hst). by eapply Hm.
Qed.
End answers.

(** ** C93.  On an orderly stream a query for the token accounts of an owner (and mint), or of a mint, is answered and shows the ledger. *)
Theorem C93_owner_queries_show_ledger_partial E X l L ts p cs o mo c : t_orderly E l L -> ops_ok l -> ts_run E X ts_empty l = Done ts -> ts_ctr ts <= 2 ^ 32 ->
  tidy E l -> all_keys E l L -> told_apart L -> keeps_owner E l -> (mo = None \/ keeps_mint E l) -> (forall m, mo = Some m -> mint_known E l L m) ->
  p = spl_token_id \/ p = spl_2022_id -> token_query p cs -> pins cs 32 (Some o) -> pins cs 0 mo ->
  exists r, ts_gpa E ts p (Some cs) c = Done (ROk r) /\ shows_ledger E L c (Some o) mo r.
Proof.
  intros Hord Hok Hrun Hc Htd Hall Hta Hko Hkm Hmk Hp Hf1 Hf2 Hf3. pose proof (token_query_filter _ _ _ _ Hf1 Hf2 Hf3) as Hf. destruct (om_bounds _ _ _ _ Hf) as [Hbo Hbm].
  pose proof (run_qinv _ _ _ _ Hrun Hok Hc (log_owner_stable _ _ _ _ Hrun Hok Hc Hko) (log_isolated _ _ _ _ Hrun Hok Hc Htd)) as HQ.
  destruct (orderly_run E X l L ts Hord Hok Hrun Hc) as (I1 & I2 & I3 & I4).
  assert (forall i t, stored (ts_table ts) i t -> ta_deleted t = false -> is_Some (ts_mints ts !! ta_mint t)) as Hms.
  { intros i t. apply (stored_mint E X l L ts Hord Hok Hrun Hc Htd Hall); [apply (qi_live _ _ HQ)|]. intros pk j u Ha. eapply table_key; [done..|by eapply (qi_log _ _ HQ)|done]. }
  assert (exists l0, ts_gpa E ts p (Some cs) Finalized = Done (ROk l0)) as [l0 Hl0].
  { unfold ts_gpa. destruct (negb (p =? spl_token_id) && negb (p =? spl_2022_id)) eqn:Hpp.
    { apply andb_true_iff in Hpp as [H1 H2]. apply negb_true_iff, N.eqb_neq in H1, H2. by destruct Hp. }
    unfold gpa_fin. rewrite Hf.
    assert (exists mi, (match mo with None => Done None | Some m => i ← unwrap (ts_mint_ix ts !! m); Done (Some i) end) = Done mi) as [mi ->].
    { destruct mo as [m|]; [|by exists None]. destruct (Hmk m eq_refl) as [Hm1 Hm2]. destruct (mint_finalized E X l L ts m Hord Hok Hrun Hc Hm1 Hm2) as (a & q & v & rr & _ & _ & _ & Hst).
      destruct (run_agrees _ _ _ _ Hrun Hok Hc) as [_ Hag]. apply Hag in Hst as (i & Hi & _). rewrite Hi. by exists (Some i). }
    cbn [mbind res_bind]. destruct (ts_by_owner ts !! _) as [ixs|]; [|by eexists]. destruct (index_done E X l L ts Hord Hok Hrun Hc (list_to_set ixs) Hms) as (lt & -> & Hlt). cbn [mbind res_bind].
    destruct (tokens_done ts (filter (fun t => keep_token o mi t = true) lt)) as [r ->]; [|by eexists]. intros t Ht Hd. apply elem_of_list_filter in Ht as [_ Ht]. by apply Hlt. }
  destruct (C49_owner_partial E X l ts p cs o mo l0 Hrun Hok Hc Htd Hko Hf1 Hf2 Hf3 Hl0) as [Hnd Hel].
  destruct (query_core E X l L ts Hord Hok Hrun Hc Htd Hall p cs c (Some o) mo l0 Hbo Hbm) as (r & Hr & R1 & R2 & R3); [by right|done|done|done| |exists r; split; [done|split; [done|split; [done|by apply R3]]]].
  intros b. rewrite Hel. split; intros (pk & v & H1 & H2 & H3 & H4); exists pk, v; (split; [done|]); (split; [done|]); (split; [done|]).
  - destruct H4 as [H4 H5]. split; [by intros q [= <-]|done].
  - destruct H4 as [H4 H5]. split; [by apply H4|done].
Qed.
Print Assumptions C93_owner_queries_show_ledger_partial.
Theorem C93_mint_queries_show_ledger_partial E X l L ts p cs m c : t_orderly E l L -> ops_ok l -> ts_run E X ts_empty l = Done ts -> ts_ctr ts <= 2 ^ 32 ->
  tidy E l -> all_keys E l L -> told_apart L -> keeps_mint E l -> mints_stay E l ->
  p = spl_token_id \/ p = spl_2022_id -> token_query p cs -> pins cs 32 None -> pins cs 0 (Some m) ->
  exists r, ts_gpa E ts p (Some cs) c = Done (ROk r) /\ shows_ledger E L c None (Some m) r.
Proof.
  intros Hord Hok Hrun Hc Htd Hall Hta Hkm Hst Hp Hf1 Hf2 Hf3. pose proof (token_query_filter _ _ _ _ Hf1 Hf2 Hf3) as Hf. destruct (om_bounds _ _ _ _ Hf) as [Hbo Hbm].
  destruct (run_minv _ _ _ _ Hrun Hok Hc Hkm Hst Htd) as (_ & Hlog & Hlv). destruct (orderly_run E X l L ts Hord Hok Hrun Hc) as (I1 & I2 & I3 & I4).
  assert (forall i t, stored (ts_table ts) i t -> ta_deleted t = false -> is_Some (ts_mints ts !! ta_mint t)) as Hms.
  { intros i t. apply (stored_mint E X l L ts Hord Hok Hrun Hc Htd Hall); [done|]. intros pk j u Ha. eapply table_key; [done..|by eapply Hlog|done]. }
  assert (exists l0, ts_gpa E ts p (Some cs) Finalized = Done (ROk l0)) as [l0 Hl0].
  { unfold ts_gpa. destruct (negb (p =? spl_token_id) && negb (p =? spl_2022_id)) eqn:Hpp.
    { apply andb_true_iff in Hpp as [H1 H2]. apply negb_true_iff, N.eqb_neq in H1, H2. by destruct Hp. }
    unfold gpa_fin. rewrite Hf. destruct (ts_mint_ix ts !! m) as [i|]; [|by eexists]. destruct (ts_by_mint ts !! i) as [ixs|]; [|by eexists].
    destruct (index_done E X l L ts Hord Hok Hrun Hc (list_to_set ixs) Hms) as (lt & -> & Hlt). cbn [mbind res_bind]. destruct (tokens_done ts lt) as [r ->]; [done|by eexists]. }
  destruct (C49_mint_partial E X l ts p cs m l0 Hrun Hok Hc Htd Hkm Hst Hf1 Hf2 Hf3 Hl0) as [Hnd Hel].
  destruct (query_core E X l L ts Hord Hok Hrun Hc Htd Hall p cs c None (Some m) l0 Hbo Hbm) as (r & Hr & R1 & R2 & R3); [by left|by right|done|done| |exists r; split; [done|split; [done|split; [done|by apply R3]]]].
  intros b. rewrite Hel. split; intros (pk & v & H1 & H2 & H3 & H4); exists pk, v; (split; [done|]); (split; [done|]); (split; [done|]).
  - split; [done|by intros q [= <-]].
  - destruct H4 as [_ H4]. by apply H4.
Qed.
Print Assumptions C93_mint_queries_show_ledger_partial.

(** ** Examples *)
Definition keys_check (l : list tsop) (L : tledger) : bool :=
  forallb (fun a => match mint_used a with None => true | Some m =>
    key_check l (d_pubkey a) && forallb (fun b => negb (d_pubkey b =? d_pubkey a) || ownedb b) (given l) && existsb (fun b => d_pubkey b =? m) (tl_base L) end) (given l).
Lemma used_mint l o a v r : Forall plain_acct (given l) -> o ∈ l -> op_acct o = Some a -> data_bytes E0 (d_data a) = Done v -> unpack_account v = Some r -> mint_used a = Some (sa_mint r).
Proof.
  intros Hp Ho Ha Hv Hu. destruct (plain_raw a) as [w Hw]; [rewrite Forall_forall in Hp; apply Hp; by eapply in_given|]. unfold mint_used. rewrite Hw in Hv |- *. simpl in Hv. injection Hv as ->. by rewrite Hu.
Qed.
Lemma keys_checked l L : Forall plain_acct (given l) -> keys_check l L = true -> all_keys E0 l L.
Proof.
  intros Hp Hk pk (o & r & Ho & a & v & Ha & Hak & Hv & Hu). unfold keys_check in Hk. rewrite forallb_forall in Hk.
  assert (forall o a v r, o ∈ l -> op_acct o = Some a -> data_bytes E0 (d_data a) = Done v -> unpack_account v = Some r -> key_check l (d_pubkey a) = true /\
    forallb (fun b => negb (d_pubkey b =? d_pubkey a) || ownedb b) (given l) = true /\ exists b, b ∈ tl_base L /\ d_pubkey b = sa_mint r) as Hone.
  { intros o' a' v' r' Ho' Ha' Hv' Hu'. specialize (Hk a' (proj1 (elem_of_list_In _ _) (in_given _ _ _ Ho' Ha'))). rewrite (used_mint l o' a' v' r' Hp Ho' Ha' Hv' Hu') in Hk.
    apply andb_true_iff in Hk as [[H1 H2]%andb_true_iff H3]. split; [done|]. split; [done|]. apply existsb_exists in H3 as (b & Hb & Hbm). exists b. split; [by apply elem_of_list_In|by apply N.eqb_eq]. }
  destruct (Hone o a v r Ho Ha Hv Hu) as (H1 & H2 & _). rewrite Hak in H1, H2. destruct (key_checked l pk Hp H1) as (K1 & K2 & K3 & K4). split.
  - apply stays_owned; [done|by split].
  - intros o' a' p' v' r' Ho' Ha' Hk' Hl' Hu'. split; [by eapply K4|]. destruct (Hone o' a' v' r' Ho' Ha' (lw_data _ _ _ _ Hl') Hu') as (_ & _ & b & Hb & Hbm). exists b. split; [by left|done].
Qed.
Definition stamp (a : acct) : N * N * N := (d_pubkey a, d_slot a, d_wv a).
Lemma told_apart_check L : bool_decide (NoDup (stamp <$> (tl_base L ++ tl_writes L))) = true -> told_apart L.
Proof.
  intros H%bool_decide_eq_true a b Ha Hb H1 H2 H3. apply elem_of_list_lookup in Ha as [i Hi], Hb as [j Hj].
  assert (i = j) as ->; [|congruence]. eapply (NoDup_lookup _ i j (stamp a) H); rewrite list_lookup_fmap, ?Hi, ?Hj; [done|]. simpl. unfold stamp. congruence.
Qed.
(** Two mints and three token accounts are loaded: 77 and 80 of the owner 1002, 77 and 81 of the mint 1001.  Account 77 changes in slots 10, 11 and the
    abandoned slot 12, account 81 in slot 10; slot 11 is confirmed, slot 10 finalized; account 82 is opened in slot 13. *)
Definition tl_hist4 : list tsop :=
  [TInit (mintd 1001 50 1 1); TInit (mintd 1004 60 1 2); TInit (tokd 77 1001 1002 4 5 1); TInit (tokd 80 1004 1002 9 5 2); TInit (tokd 81 1001 1003 3 5 3); TSlot ord0 (SlotInfo 10 9 0) Processed;
   TUpdate (tokd 77 1001 1002 5 10 2) Processed; TUpdate (tokd 81 1001 1003 2 10 3) Processed; TSlot ord0 (SlotInfo 10 9 0) Confirmed; TUpdate (tokd 77 1001 1002 7 11 4) Processed;
   TUpdate (tokd 77 1001 1002 8 12 5) Processed; TSlot ord0 (SlotInfo 11 10 0) Confirmed; TSlot ord0 (SlotInfo 10 9 0) Finalized; TUpdate (tokd 82 1001 1002 1 13 6) Processed].
Lemma hist4_plain : Forall plain_acct (given tl_hist4).
Proof. repeat constructor. Qed.
Definition amounts (r : res (result (list acct))) : list (N * option N) := match r with Done (ROk l) => (fun b => (d_pubkey b, amount_of (Done (ROk (Some b))))) <$> l | _ => [] end.
Lemma hist4_mint : mint_known E0 tl_hist4 (tledger_at tl_hist4) 1001.
Proof.
  split.
  - intros o b Ho Ha Hk. pose proof (in_given _ _ _ Ho Ha) as Hg. exists TokenP, (pack_mint (SplMint (Some 5) 50 6 true None)).
    assert (forallb (fun b => negb (d_pubkey b =? 1001) || bool_decide (b = mintd 1001 50 1 1)) (given tl_hist4) = true) as Hc by (by vm_compute).
    rewrite forallb_forall in Hc. specialize (Hc b (proj1 (elem_of_list_In _ _) Hg)). rewrite Hk in Hc. apply bool_decide_eq_true in Hc as ->. split; [apply mintd_live|].
    destruct (mintd_unpack 50 eq_refl) as (-> & _). by eexists.
  - exists (mintd 1001 50 1 1). split; [|done]. left.
    assert (tl_base (tledger_at tl_hist4) = [mintd 1001 50 1 1; mintd 1004 60 1 2; tokd 77 1001 1002 4 5 1; tokd 80 1004 1002 9 5 2; tokd 81 1001 1003 3 5 3]) as -> by (vm_compute; reflexivity). left.
Qed.
Example C93_owner_queries_show_ledger_example :
  t_orderly E0 tl_hist4 (tledger_at tl_hist4) /\ ops_ok tl_hist4 /\ ts_run E0 X0 ts_empty tl_hist4 = Done (final tl_hist4) /\ ts_ctr (final tl_hist4) <= 2 ^ 32 /\ tidy E0 tl_hist4 /\
  all_keys E0 tl_hist4 (tledger_at tl_hist4) /\ told_apart (tledger_at tl_hist4) /\ keeps_owner E0 tl_hist4 /\ keeps_mint E0 tl_hist4 /\ mints_stay E0 tl_hist4 /\
  mint_known E0 tl_hist4 (tledger_at tl_hist4) 1001 /\
  (let cs := by_owner 1002 ++ by_mint 1001 in token_query spl_token_id cs /\ pins cs 32 (Some 1002) /\ pins cs 0 (Some 1001)) /\
  (forall c, amounts (ts_gpa E0 (final tl_hist4) spl_token_id (Some (by_owner 1002)) c) ≡ₚ
     match c with Processed => [(77, Some 8); (80, Some 9)] | Confirmed => [(77, Some 7); (80, Some 9)] | Finalized => [(77, Some 5); (80, Some 9)] end) /\
  (forall c, amounts (ts_gpa E0 (final tl_hist4) spl_token_id (Some (by_owner 1002 ++ by_mint 1001)) c) =
     match c with Processed => [(77, Some 8)] | Confirmed => [(77, Some 7)] | Finalized => [(77, Some 5)] end).
Proof.
  assert (forallb raw_b tl_hist4 = true) as Hraw by (by vm_compute).
  split; [apply tledger_at_orderly; by vm_compute|]. split; [repeat constructor; simpl; try done; intros m; done|]. split; [apply final_run; by vm_compute|]. split; [by vm_compute|].
  split; [apply tidy_check; [done|by vm_compute]|]. split; [apply keys_checked; [apply hist4_plain|by vm_compute]|]. split; [apply told_apart_check; by vm_compute|].
  split; [refine (keeps_check _ Hraw sa_owner _); by vm_compute|]. split; [refine (keeps_check _ Hraw sa_mint _); by vm_compute|]. split; [apply stay_check; [done|by vm_compute]|].
  split; [apply hist4_mint|]. split; [by apply asks_both|]. split; intros []; vm_compute; reflexivity.
Qed.
Example C93_mint_queries_show_ledger_example : (token_query spl_token_id (by_mint 1001) /\ pins (by_mint 1001) 32 None /\ pins (by_mint 1001) 0 (Some 1001)) /\
  (forall c, amounts (ts_gpa E0 (final tl_hist4) spl_token_id (Some (by_mint 1001)) c) ≡ₚ
     match c with Processed => [(77, Some 8); (81, Some 2)] | Confirmed => [(77, Some 7); (81, Some 2)] | Finalized => [(77, Some 5); (81, Some 2)] end).
Proof. split; [by apply asks_mint|]. intros []; vm_compute; reflexivity. Qed.

(** ** Findings *)
(** An account opened since the finalized slot is not answered: account 82 of [tl_hist4] belongs to owner 1002 at processed. *)
Theorem C93_opened_refuted : exists E X l L ts o pk a r, t_orderly E l L /\ ops_ok l /\ ts_run E X ts_empty l = Done ts /\ ts_ctr ts <= 2 ^ 32 /\
  tidy E l /\ all_keys E l L /\ told_apart L /\ keeps_owner E l /\ in_tledger L pk Processed (Some a) /\ holds_for E a (Some o) None /\
  ts_gpa E ts spl_token_id (Some (by_owner o)) Processed = Done (ROk r) /\ pk ∉ d_pubkey <$> r.
Proof.
  destruct C93_owner_queries_show_ledger_example as (H1 & H2 & H3 & H4 & H5 & H6 & H7 & H8 & _).
  exists E0, X0, tl_hist4, (tledger_at tl_hist4), (final tl_hist4), 1002, 82, (tokd 82 1001 1002 1 13 6), (TokenStoreQueryProps.gpa_done (ts_gpa E0 (final tl_hist4) spl_token_id (Some (by_owner 1002)) Processed)).
  split; [done|]. split; [done|]. split; [done|]. split; [done|]. split; [done|]. split; [done|]. split; [done|]. split; [done|].
  assert (tl_writes (tledger_at tl_hist4) = [tokd 77 1001 1002 5 10 2; tokd 81 1001 1003 2 10 3; tokd 77 1001 1002 7 11 4; tokd 77 1001 1002 8 12 5; tokd 82 1001 1002 1 13 6]) as Hw by (vm_compute; reflexivity).
  assert (forallb (fun b => negb (d_pubkey b =? 82) || bool_decide (stamp b = (82, 13, 6))) (tl_base (tledger_at tl_hist4) ++ tl_writes (tledger_at tl_hist4)) = true) as Hall by (vm_compute; reflexivity).
  split.
  { split; [split; [|reflexivity]|].
    - right. split; [rewrite Hw; do 4 right; left|]. right. assert (tl_conf (tledger_at tl_hist4) = [(11, 10); (10, 9)]) as -> by (vm_compute; reflexivity). done.
    - intros b Hb Hk. rewrite forallb_forall in Hall. specialize (Hall b). assert (b ∈ tl_base (tledger_at tl_hist4) ++ tl_writes (tledger_at tl_hist4)) as Hin by (apply elem_of_app; destruct Hb as [?|[? _]]; tauto).
      specialize (Hall (proj1 (elem_of_list_In _ _) Hin)). rewrite Hk in Hall. apply bool_decide_eq_true in Hall. injection Hall as _ Hs Hv. right. split; [exact Hs|]. rewrite Hv. apply N.le_refl. }
  split. { eexists _, _, _. split; [apply tokd_live|]. split; [by apply tokd_unpack|]. split; [by intros q [= <-]|done]. }
  split; [apply TokenStoreQueryProps.gpa_eq; vm_compute; by eexists|]. intros Hin. assert (bool_decide (82 ∈ d_pubkey <$> TokenStoreQueryProps.gpa_done (ts_gpa E0 (final tl_hist4) spl_token_id (Some (by_owner 1002)) Processed)) = false) as Hb by (vm_compute; reflexivity).
  apply bool_decide_eq_false in Hb. exact (Hb Hin).
Qed.
Print Assumptions C93_opened_refuted.
(** An account handed over in a confirmed slot: the query for its old owner still answers it, until the slot is finalized. *)
Definition tl_hand : list tsop :=
  [TInit (mintd 1001 50 1 1); TInit (tokd 77 1001 1002 4 5 1); TSlot ord0 (SlotInfo 10 9 0) Processed; TUpdate (tokd 77 1001 1003 5 10 2) Processed; TSlot ord0 (SlotInfo 10 9 0) Confirmed].
Theorem C93_handed_over_refuted : exists E X l L ts o b, t_orderly E l L /\ ops_ok l /\ ts_run E X ts_empty l = Done ts /\ ts_ctr ts <= 2 ^ 32 /\ tidy E l /\ all_keys E l L /\ told_apart L /\
  ts_gpa E ts spl_token_id (Some (by_owner o)) Confirmed = Done (ROk [b]) /\ forall a, in_tledger L (d_pubkey b) Confirmed (Some a) -> ~ holds_for E a (Some o) None.
Proof.
  exists E0, X0, tl_hand, (tledger_at tl_hand), (final tl_hand), 1002.
  destruct (TokenStoreQueryProps.gpa_done (ts_gpa E0 (final tl_hand) spl_token_id (Some (by_owner 1002)) Confirmed)) as [|b [|]] eqn:Hb; [by vm_compute in Hb| |by vm_compute in Hb]. exists b.
  assert (forallb raw_b tl_hand = true) as Hraw by (by vm_compute). assert (Forall plain_acct (given tl_hand)) as Hp by repeat constructor.
  split; [apply tledger_at_orderly; by vm_compute|]. split; [repeat constructor; simpl; try done; intros m; done|]. split; [apply final_run; by vm_compute|]. split; [by vm_compute|].
  split; [apply tidy_check; [done|by vm_compute]|]. split; [apply keys_checked; [done|by vm_compute]|]. split; [apply told_apart_check; by vm_compute|].
  split; [rewrite <- Hb; apply TokenStoreQueryProps.gpa_eq; vm_compute; by eexists|].
  assert (d_pubkey b = 77) as ->. { assert (d_pubkey <$> TokenStoreQueryProps.gpa_done (ts_gpa E0 (final tl_hand) spl_token_id (Some (by_owner 1002)) Confirmed) = [77]) as Hk by (by vm_compute). rewrite Hb in Hk. by injection Hk. }
  clear Hb. intros a [[Ha Hak] Hmax] (p & v & r & Hl & Hu & Ho & _). assert (tl_writes (tledger_at tl_hand) = [tokd 77 1001 1003 5 10 2]) as Hw by (vm_compute; reflexivity).
  assert (tl_base (tledger_at tl_hand) = [mintd 1001 50 1 1; tokd 77 1001 1002 4 5 1]) as Hbs by (vm_compute; reflexivity).
  assert (tcounts (tledger_at tl_hand) Confirmed (tokd 77 1001 1003 5 10 2)) as Hn.
  { right. split; [rewrite Hw; left|]. exists 9. assert (tl_conf (tledger_at tl_hand) = [(10, 9)]) as -> by (by vm_compute). left. }
  pose proof (Hmax _ Hn eq_refl) as Hold. destruct Ha as [Ha|[Ha _]].
  - rewrite Hbs in Ha. apply elem_of_cons in Ha as [->|Ha]; [done|]. apply elem_of_list_singleton in Ha as ->. destruct Hold as [Hx|[Hx _]]; done.
  - rewrite Hw in Ha. apply elem_of_list_singleton in Ha as ->. pose proof (lw_data _ _ _ _ Hl) as Hv. rewrite (lw_data _ _ _ _ (tokd_live _ _ _ _ _ _)) in Hv. injection Hv as <-.
    destruct (tokd_unpack 1001 1003 5 eq_refl eq_refl eq_refl) as (Hx & _). rewrite Hx in Hu. injection Hu as <-. specialize (Ho 1002 eq_refl). done.
Qed.
Print Assumptions C93_handed_over_refuted.
