(** Token program accounts survive classification and conversion back (C41); mint indices (C42, the
    part about lookups). *)
From Verif Require Import Base DataModel BincodeModel BincodeProofs FilterModel FilterProps TokenModel TokenProofs SplModel SplProofs
  TokenUtilsModel TokenUtilsProofs.
#[local] Arguments le : simpl never.
#[local] Arguments unle : simpl never.

(** ** C41.  The full claim: whatever is accepted reads back as the same Solana account. *)
Definition mints_agree (ix : gmap pubkey N) (mints : gmap N mint_account) : Prop :=
  forall i m, mints !! i = Some m -> ix !! ma_pubkey m = Some i.
Definition ix_injective (ix : gmap pubkey N) : Prop := forall p q i, ix !! p = Some i -> ix !! q = Some i -> p = q.
Definition survives (E : ext) (a : acct) : Prop := forall ix ctr t ix' ctr' mints b slot wv,
  account_type E a ix ctr = Done (Some (t, ix', ctr')) -> ix_injective ix' -> mints_agree ix' mints ->
  tpa_to_acct t slot wv mints = Done (Some b) -> to_solana E (d_account b) = to_solana E (d_account a).

(** Data a token program account has when no optional field was ever cleared: what packing writes
    into fresh memory. *)
Definition clean_token (v : bytes) : Prop := exists r, sa_ok r /\ v = pack_account r /\ (sa_delegate r = None -> sa_delegated r = 0).
Definition clean_mint (v : bytes) : Prop := exists r, smint_ok r /\ v = pack_mint r.
Definition clean_multisig (v : bytes) : Prop := exists r l k, sms_ok r /\ v = pack_multisig r /\
  ms_signers r = l ++ replicate k 0 /\ 0 ∉ l.

Lemma norm_id r : (sa_delegate r = None -> sa_delegated r = 0) -> norm_delegated r = r.
Proof. intros H. destruct r as [m o n [d|] s nt da c]; simpl in *; [done|]. unfold norm_delegated. simpl. by rewrite H. Qed.
Lemma live_signers_app l k : live_signers (l ++ k) = live_signers l ++ live_signers k.
Proof. apply filter_app. Qed.
Lemma live_signers_all l : 0 ∉ l -> live_signers l = l.
Proof.
  induction l as [|x l IH]; intros H; [done|]. unfold live_signers. rewrite filter_cons_True.
  - f_equal. apply IH. intros Hx. apply H. by right.
  - intros ->. apply H. left.
Qed.
Lemma live_signers_zero k : live_signers (replicate k 0) = [].
Proof. induction k as [|k IH]; [done|]. simpl. unfold live_signers. rewrite filter_cons_False by (intros H; by apply H). exact IH. Qed.
Lemma compact_id l k : 0 ∉ l -> compact (l ++ replicate k 0) = l ++ replicate k 0.
Proof.
  intros H. unfold compact. rewrite live_signers_app, live_signers_all, live_signers_zero, app_nil_r by done.
  rewrite app_length, replicate_length. unfold pubkey. by replace (length l + k - length l)%nat with k by lia.
Qed.
Lemma mint_index_found mint ix ctr i ix' ctr' : mint_index mint ix ctr = (i, ix', ctr') -> ix' !! mint = Some i.
Proof. unfold mint_index. destruct (ix !! mint) as [j|] eqn:Hj; intros [= <- <- <-]; [done|]. by rewrite lookup_insert. Qed.

(** Token accounts: the pubkey, owner and data always come back for clean data. *)
Theorem C41_token_data_partial E a p v ix ctr : live_with E a p v -> clean_token v ->
  exists t ix' ctr', account_type E a ix ctr = Done (Some (TPToken t, ix', ctr')) /\
    forall mints m slot wv, ix_injective ix' -> mints_agree ix' mints -> mints !! ta_mint t = Some m ->
    exists b, tpa_to_acct (TPToken t) slot wv mints = Done (Some b) /\ d_pubkey b = d_pubkey a /\
      data_bytes E (d_data b) = Done v /\ d_owner b = d_owner a /\ d_slot b = slot /\ d_wv b = wv.
Proof.
  intros Hl (r & Hr & -> & Hd). pose proof (unpack_pack_account r Hr) as Hu.
  pose proof (type_token E a p _ r ix ctr Hl Hu) as Ht.
  destruct (mint_index (sa_mint r) ix ctr) as [[i ix'] ctr'] eqn:Hi. do 3 eexists. split; [exact Ht|].
  intros mints m slot wv Hinj Hag Hm. simpl ta_mint in Hm. simpl tpa_to_acct.
  rewrite (token_back E a p _ r i mints m slot wv Hl Hu Hm).
  - eexists. split; [done|]. rewrite norm_id by done. done.
  - apply (Hinj _ _ i); [by apply Hag|]. by eapply mint_index_found.
Qed.
(** The whole account comes back when, besides, it holds exactly the rent minimum, is not executable
    and rent exempt. *)
Theorem C41_token_account_partial E a p v : live_with E a p v -> clean_token v ->
  d_lamports a = 2039280 -> a_executable (d_account a) = false -> a_rent_epoch (d_account a) = 2 ^ 64 - 1 -> survives E a.
Proof.
  intros Hl (r & Hr & -> & Hd) Hlm Hex Hre ix ctr t ix' ctr' mints b slot wv Ht Hinj Hag Hb.  change 2039280 with (rent_minimum 165) in Hlm.
  pose proof (unpack_pack_account r Hr) as Hu. rewrite (type_token E a p _ r ix ctr Hl Hu) in Ht.
  destruct (mint_index (sa_mint r) ix ctr) as [[i ix1] ctr1] eqn:Hi. injection Ht as <- -> ->.
  simpl tpa_to_acct in Hb. destruct (mints !! i) as [m|] eqn:Hm.
  - rewrite (token_back E a p _ r i mints m slot wv Hl Hu Hm) in Hb.
    + injection Hb as <-. unfold to_solana. simpl. rewrite (lw_data _ _ _ _ Hl), norm_id by done. simpl. by rewrite Hlm, Hex, Hre.
    + apply (Hinj _ _ i); [by apply Hag|]. by eapply mint_index_found.
  - unfold token_to_acct in Hb. simpl in Hb. rewrite Hm in Hb. pose proof (lw_lamports _ _ _ _ Hl) as H0. apply N.eqb_neq in H0.
    rewrite H0 in Hb. done.
Qed.
(** Mints and multisigs keep their lamports too. *)
Theorem C41_mint_partial E a p v : live_with E a p v -> clean_mint v ->
  a_executable (d_account a) = false -> a_rent_epoch (d_account a) = 2 ^ 64 - 1 -> survives E a.
Proof.
  intros Hl (r & Hr & ->) Hex Hre ix ctr t ix' ctr' mints b slot wv Ht _ _ Hb.
  rewrite (type_mint E a p _ r ix ctr Hl (unpack_pack_mint r Hr)) in Ht. injection Ht as <- <- <-. simpl tpa_to_acct in Hb.
  rewrite mint_back in Hb by apply Hl. injection Hb as <-. unfold to_solana. simpl. rewrite (lw_data _ _ _ _ Hl). simpl. by rewrite Hex, Hre.
Qed.
Theorem C41_multisig_partial E a p v : live_with E a p v -> clean_multisig v ->
  a_executable (d_account a) = false -> a_rent_epoch (d_account a) = 2 ^ 64 - 1 -> survives E a.
Proof.
  intros Hl (r & l & k & Hr & -> & Hs & Hz) Hex Hre ix ctr t ix' ctr' mints b slot wv Ht _ _ Hb.
  rewrite (type_multisig E a p _ r ix ctr Hl (unpack_pack_multisig r Hr)) in Ht. injection Ht as <- <- <-. simpl tpa_to_acct in Hb.
  rewrite multisig_back in Hb by first [apply Hl|apply Hr]. simpl in Hb. injection Hb as <-. unfold to_solana. simpl.
  rewrite (lw_data _ _ _ _ Hl). simpl. rewrite Hex, Hre. do 2 f_equal. rewrite Hs, compact_id, <- Hs by done. by destruct r.
Qed.
(** For arbitrary accepted token account data (stale bytes included), what is read back unpacks to the
    same token account; only the delegated amount of an account without delegate is lost. *)
Theorem C41_token_meaning E a p v r ix ctr : live_with E a p v -> unpack_account v = Some r ->
  exists t ix' ctr', account_type E a ix ctr = Done (Some (TPToken t, ix', ctr')) /\
    forall mints m slot wv, ix_injective ix' -> mints_agree ix' mints -> mints !! ta_mint t = Some m ->
    exists b w s, tpa_to_acct (TPToken t) slot wv mints = Done (Some b) /\ data_bytes E (d_data b) = Done w /\
      unpack_account w = Some s /\ sa_mint s = sa_mint r /\ sa_owner s = sa_owner r /\ sa_amount s = sa_amount r /\
      sa_delegate s = sa_delegate r /\ sa_state s = sa_state r /\ sa_native s = sa_native r /\ sa_close s = sa_close r /\
      (is_Some (sa_delegate r) -> sa_delegated s = sa_delegated r).
Proof.
  intros Hl Hu. pose proof (type_token E a p _ r ix ctr Hl Hu) as Ht. pose proof (unpack_account_ok _ _ Hu) as Hr.
  destruct (mint_index (sa_mint r) ix ctr) as [[i ix'] ctr'] eqn:Hi. do 3 eexists. split; [exact Ht|].
  intros mints m slot wv Hinj Hag Hm. simpl ta_mint in Hm. simpl tpa_to_acct.
  rewrite (token_back E a p _ r i mints m slot wv Hl Hu Hm).
  - do 2 eexists. exists (norm_delegated r). split; [done|]. split; [done|].
    split; [by apply unpack_pack_account, norm_ok|]. repeat (split; [done|]). intros [d Hd]. unfold norm_delegated. simpl. by rewrite Hd.
  - apply (Hinj _ _ i); [by apply Hag|]. by eapply mint_index_found.
Qed.
(** Exactly three kinds of data are accepted from a live token program account. *)
Theorem C41_accepted_iff E a p v ix ctr : live_with E a p v ->
  account_type E a ix ctr <> Done None <-> is_Some (unpack_mint v) \/ is_Some (unpack_account v) \/ is_Some (unpack_multisig v).
Proof.
  intros Hl. rewrite (type_live E a p v ix ctr Hl). destruct (unpack_mint v), (unpack_account v), (unpack_multisig v);
    (split; [intros H; try (left; done); try (right; left; done); try (right; right; done); done|]); try done.
  intros [[? H]|[[? H]|[? H]]]; done.
Qed.
(** Every Token-2022 account with extensions (longer than the base layout) is turned away. *)
Theorem C41_extended_rejected E a v ix ctr : live_with E a Token2022P v ->
  (165 < length v)%nat -> length v <> 355%nat -> account_type E a ix ctr = Done None.
Proof.
  intros Hl H1 H2. rewrite (type_live E a Token2022P v ix ctr Hl). unfold unpack_mint, unpack_account, unpack_multisig.
  rewrite !unpack_other_length by lia. done.
Qed.

Definition E0 : ext := Ext (fun _ => None) (fun _ => None) (fun _ _ => None) (fun _ => None) (fun _ _ => None) (fun _ => None).
Definition spl1 : spl_account := SplAccount 1001 1002 5000000000 None Init (Some 2039280) 0 None.
Definition tokacct (lam : N) (v : bytes) (ex : bool) (re : N) : acct := Acct 77 (Account lam (DRaw v) spl_token_id ex re) 10 1.
Lemma tokacct_live lam v ex re : lam <> 0 -> live_with E0 (tokacct lam v ex re) TokenP v.
Proof. intros H. constructor; done. Qed.
Lemma spl1_ok : sa_ok spl1.
Proof. repeat split; try done; intros p H; simpl in H; try done. by injection H as <-. Qed.
Definition mint1 : mint_account := MintAccount TokenP 1001 1461600 0 9 true None None None.
Lemma agree1 : ix_injective {[1001 := 0]} /\ mints_agree {[1001 := 0]} {[0 := mint1]}.
Proof.
  split.
  - intros p q i [<- <-]%lookup_singleton_Some [<- _]%lookup_singleton_Some. done.
  - intros i m [<- <-]%lookup_singleton_Some. by rewrite lookup_singleton.
Qed.
Example C41_example_token : live_with E0 (tokacct (rent_minimum 165) (pack_account spl1) false (2 ^ 64 - 1)) TokenP (pack_account spl1) /\
  clean_token (pack_account spl1).
Proof. split; [by apply tokacct_live|]. exists spl1. split; [apply spl1_ok|]. done. Qed.
Definition spl_mint1 : spl_mint := SplMint (Some 5) 1000 6 true None.
Definition spl_ms1 : spl_multisig := SplMultisig 2 3 true [11; 12; 13; 0; 0; 0; 0; 0; 0; 0; 0].
Lemma spl_ms1_ok : sms_ok spl_ms1.
Proof. repeat split; try done. repeat constructor. Qed.
Example C41_example_mint : live_with E0 (tokacct 1461600 (pack_mint spl_mint1) false (2 ^ 64 - 1)) TokenP (pack_mint spl_mint1) /\
  clean_mint (pack_mint spl_mint1).
Proof.
  split; [by apply tokacct_live|]. exists spl_mint1. split; [|done]. repeat split; try done; intros p H; simpl in H; try done. by injection H as <-.
Qed.
Example C41_example_multisig : live_with E0 (tokacct 3361680 (pack_multisig spl_ms1) false (2 ^ 64 - 1)) TokenP (pack_multisig spl_ms1) /\
  clean_multisig (pack_multisig spl_ms1).
Proof.
  split; [by apply tokacct_live|]. exists spl_ms1, [11; 12; 13], 8%nat. split; [apply spl_ms1_ok|]. split; [done|]. split; [done|].
  intros H. rewrite !elem_of_cons, elem_of_nil in H. naive_solver.
Qed.

(** Findings.  Lamports: a wrapped SOL account (lamports = rent + amount) reads back with the rent
    minimum only. *)
Lemma refute_survives a t b : account_type E0 a {[1001 := 0]} 1 = Done (Some (t, {[1001 := 0]}, 1)) ->
  tpa_to_acct t 10 1 {[0 := mint1]} = Done (Some b) -> to_solana E0 (d_account b) <> to_solana E0 (d_account a) -> ~ survives E0 a.
Proof.
  intros Ht Hb Hne Hs. apply Hne. destruct agree1 as [Hi Ha]. exact (Hs _ _ _ _ _ _ _ _ _ Ht Hi Ha Hb).
Qed.
Definition tok_of (a : acct) : tpa := match account_type E0 a {[1001 := 0]} 1 with Done (Some (t, _, _)) => t | _ => TPDeleted 0 end.
Definition back_of (a : acct) : acct := match tpa_to_acct (tok_of a) 10 1 {[0 := mint1]} with Done (Some b) => b | _ => a end.
Theorem C41_lamports_lost_refuted : exists a v, live_with E0 a TokenP v /\ clean_token v /\ ~ survives E0 a.
Proof.
  exists (tokacct (2039280 + 5000000000) (pack_account spl1) false (2 ^ 64 - 1)), (pack_account spl1).
  split; [by apply tokacct_live|]. split; [exists spl1; split; [apply spl1_ok|done]|].
  apply (refute_survives _ (tok_of (tokacct (2039280 + 5000000000) (pack_account spl1) false (2 ^ 64 - 1)))
    (back_of (tokacct (2039280 + 5000000000) (pack_account spl1) false (2 ^ 64 - 1)))); [by vm_compute|by vm_compute|].
  intros H. vm_compute in H. done.
Qed.
(** Executable flag and rent epoch of a mint are replaced. *)
Theorem C41_rent_epoch_lost_refuted : exists a v, live_with E0 a TokenP v /\ clean_mint v /\ ~ survives E0 a.
Proof.
  exists (tokacct 1461600 (pack_mint spl_mint1) false 361), (pack_mint spl_mint1).
  split; [by apply tokacct_live|]. split; [exists spl_mint1; split; [|done]; repeat split; try done; intros p H; simpl in H; try done; by injection H as <-|].
  apply (refute_survives _ (tok_of (tokacct 1461600 (pack_mint spl_mint1) false 361)) (back_of (tokacct 1461600 (pack_mint spl_mint1) false 361)));
    [by vm_compute|by vm_compute|]. intros H. vm_compute in H. done.
Qed.
(** Data: the token program clears an optional field by clearing its tag only, so the bytes of a revoked
    delegate stay in the account; they are lost. *)
Definition stale : bytes := take 76 (pack_account spl1) ++ le 32 4242 ++ drop 108 (pack_account spl1).
Theorem C41_stale_bytes_lost_refuted : exists a, live_with E0 a TokenP stale /\ unpack_account stale = Some spl1 /\
  data_bytes E0 (d_data (back_of a)) <> data_bytes E0 (d_data a) /\ ~ survives E0 a.
Proof.
  exists (tokacct (rent_minimum 165) stale false (2 ^ 64 - 1)). split; [by apply tokacct_live|]. split; [by vm_compute|]. split.
  - intros H. vm_compute in H. done.
  - apply (refute_survives _ (tok_of (tokacct (rent_minimum 165) stale false (2 ^ 64 - 1)))
      (back_of (tokacct (rent_minimum 165) stale false (2 ^ 64 - 1)))); [by vm_compute|by vm_compute|]. intros H. vm_compute in H. done.
Qed.
(** A multisig with a default key between its signers comes back with the signers moved. *)
Definition spl_ms2 : spl_multisig := SplMultisig 2 3 true [11; 0; 13; 0; 0; 0; 0; 0; 0; 0; 0].
Theorem C41_signers_moved_refuted : exists a, live_with E0 a TokenP (pack_multisig spl_ms2) /\ unpack_multisig (pack_multisig spl_ms2) = Some spl_ms2 /\
  ~ survives E0 a.
Proof.
  exists (tokacct 3361680 (pack_multisig spl_ms2) false (2 ^ 64 - 1)). split; [by apply tokacct_live|]. split; [by vm_compute|].
  apply (refute_survives _ (tok_of (tokacct 3361680 (pack_multisig spl_ms2) false (2 ^ 64 - 1)))
    (back_of (tokacct 3361680 (pack_multisig spl_ms2) false (2 ^ 64 - 1)))); [by vm_compute|by vm_compute|]. intros H. vm_compute in H. done.
Qed.
Definition ext_data : bytes := pack_account spl1 ++ map n2b [2; 7; 0; 0; 0].
Definition ext_acct : acct := Acct 77 (Account 5 (DRaw ext_data) spl_2022_id false 0) 10 1.
Example C41_example_extended : live_with E0 ext_acct Token2022P ext_data /\
  (165 < length ext_data)%nat /\ length ext_data <> 355%nat.
Proof. split; [constructor; done|]. unfold ext_data. rewrite app_length, pack_account_length. simpl. lia. Qed.
(** A Token-2022 account with an extension (here: immutable owner) is not stored at all. *)
Theorem C41_extended_refuted : exists a v r, live_with E0 a Token2022P v /\ unpack_account (take 165 v) = Some r /\ account_type E0 a ∅ 0 = Done None.
Proof. exists ext_acct, ext_data, spl1. split; [constructor; done|]. split; by vm_compute. Qed.

(** ** C42, lookups.  Any sequence of index requests, starting from a fresh store. *)
Fixpoint lookups (ix : gmap pubkey N) (ctr : N) (l : list pubkey) : gmap pubkey N * N :=
  match l with
  | [] => (ix, ctr)
  | p :: l' => let '(_, ix', ctr') := mint_index p ix ctr in lookups ix' ctr' l'
  end.
Definition ix_ok (ix : gmap pubkey N) (ctr : N) : Prop := ix_injective ix /\ forall p i, ix !! p = Some i -> i < ctr.
Lemma mint_index_ok p ix ctr i ix' ctr' : ix_ok ix ctr -> mint_index p ix ctr = (i, ix', ctr') ->
  ix_ok ix' ctr' /\ ix' !! p = Some i /\ (forall q j, ix !! q = Some j -> ix' !! q = Some j) /\ ctr <= ctr'.
Proof.
  intros [Hi Hb]. unfold mint_index. destruct (ix !! p) as [j|] eqn:Hj; intros [= <- <- <-]; [done|].
  split_and!; [split| | |lia].
  - intros a b k. rewrite !lookup_insert_Some. intros [[<- <-]|[Ha Hka]] [[<- Hc]|[Hb' Hkb]]; try done.
    + apply Hb in Hkb. lia.
    + apply Hb in Hka. lia.
    + by eapply Hi.
  - intros a k. rewrite lookup_insert_Some. intros [[_ <-]|[_ H]]; [lia|]. apply Hb in H. lia.
  - by rewrite lookup_insert.
  - intros q j Hq. rewrite lookup_insert_ne; [done|]. intros ->. congruence.
Qed.
Lemma lookups_ok l ix ctr : ix_ok ix ctr -> ix_ok (lookups ix ctr l).1 (lookups ix ctr l).2 /\
  (forall q j, ix !! q = Some j -> (lookups ix ctr l).1 !! q = Some j) /\ (forall p, p ∈ l -> is_Some ((lookups ix ctr l).1 !! p)).
Proof.
  revert ix ctr. induction l as [|p l IH]; simpl; intros ix ctr Hok; [split_and!; try done; intros p Hp; by apply elem_of_nil in Hp|].
  destruct (mint_index p ix ctr) as [[i ix'] ctr'] eqn:Hm. destruct (mint_index_ok _ _ _ _ _ _ Hok Hm) as (Hok' & Hp & Hk & _).
  destruct (IH ix' ctr' Hok') as (H1 & H2 & H3). split_and!; [done|auto|]. intros q [->|Hq]%elem_of_cons; [|by apply H3].
  exists i. by apply H2.
Qed.
Lemma ix_ok_empty : ix_ok ∅ 0.
Proof. split; intros ? *; by rewrite lookup_empty. Qed.
(** An index once given is given again by every later request, and different mints get different indices. *)
Theorem C42_lookup_stable l1 p l2 : let s1 := lookups ∅ 0 l1 in let '(i, ix, ctr) := mint_index p s1.1 s1.2 in
  let s2 := lookups ix ctr l2 in (mint_index p s2.1 s2.2).1.1 = i.
Proof.
  simpl. destruct (mint_index p _ _) as [[i ix] ctr] eqn:Hm. destruct (lookups_ok l1 ∅ 0 ix_ok_empty) as (Hok & _).
  destruct (mint_index_ok _ _ _ _ _ _ Hok Hm) as (Hok1 & Hp & _). destruct (lookups_ok l2 ix ctr Hok1) as (_ & Hk & _).
  unfold mint_index. by rewrite (Hk _ _ Hp).
Qed.
Theorem C42_lookup_unique l p q i : (lookups ∅ 0 l).1 !! p = Some i -> (lookups ∅ 0 l).1 !! q = Some i -> p = q.
Proof. destruct (lookups_ok l ∅ 0 ix_ok_empty) as ([H _] & _). apply H. Qed.
Example C42_example_lookup : (lookups ∅ 0 [5; 6; 5; 7]).1 !! 7 = Some 2 /\ (lookups ∅ 0 [5; 6; 5; 7]).1 !! 5 = Some 0.
Proof. by vm_compute. Qed.

Print Assumptions C41_token_data_partial.
Print Assumptions C41_token_account_partial.
Print Assumptions C41_mint_partial.
Print Assumptions C41_multisig_partial.
Print Assumptions C41_token_meaning.
Print Assumptions C41_accepted_iff.
Print Assumptions C41_extended_rejected.
Print Assumptions C41_extended_refuted.
Print Assumptions C41_lamports_lost_refuted.
Print Assumptions C41_rent_epoch_lost_refuted.
Print Assumptions C41_stale_bytes_lost_refuted.
Print Assumptions C41_signers_moved_refuted.
Print Assumptions C42_lookup_stable.
Print Assumptions C42_lookup_unique.
