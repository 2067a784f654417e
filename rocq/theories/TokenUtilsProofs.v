(** Classification of token program accounts and conversion back. *)
From Verif Require Import Base DataModel BincodeModel BincodeProofs FilterModel TokenModel TokenProofs SplModel SplProofs TokenUtilsModel.
#[local] Arguments le : simpl never.
#[local] Arguments unle : simpl never.

(** The account is live, belongs to the token program [p] and its data is [v]. *)
Record live_with (E : ext) (a : acct) (p : program) (v : bytes) : Prop := LiveWith {
  lw_lamports : d_lamports a <> 0;
  lw_owner : d_owner a = program_pk p;
  lw_data : data_bytes E (d_data a) = Done v;
  lw_len : data_len (d_data a) = lenN v }.

Lemma ids_differ : spl_token_id <> spl_2022_id.
Proof. done. Qed.
Definition norm_delegated (r : spl_account) : spl_account :=
  SplAccount (sa_mint r) (sa_owner r) (sa_amount r) (sa_delegate r) (sa_state r) (sa_native r)
    (match sa_delegate r with Some _ => sa_delegated r | None => 0 end) (sa_close r).
Lemma norm_ok r : sa_ok r -> sa_ok (norm_delegated r).
Proof.
  intros (H1 & H2 & H3 & H4 & H5 & H6 & H7). repeat split; simpl; try done.
  destruct (sa_delegate r); done.
Qed.

Lemma live_gate E a p v : live_with E a p v ->
  ((d_lamports a =? 0) || (negb (d_owner a =? spl_token_id) && negb (d_owner a =? spl_2022_id))) = false.
Proof.
  intros [H1 H2 _ _]. apply N.eqb_neq in H1. rewrite H1, H2. by destruct p.
Qed.
Lemma type_token E a p v r ix ctr : live_with E a p v -> unpack_account v = Some r ->
  account_type E a ix ctr = Done (Some (let '(i, ix', ctr') := mint_index (sa_mint r) ix ctr in (TPToken (of_spl_account p a r i None), ix', ctr'))).
Proof.
  intros Hl Hu. unfold account_type. rewrite (live_gate _ _ _ _ Hl). destruct Hl as [H1 H2 H3 H4].
  pose proof (unpack_length _ _ _ _ Hu) as Hlen. rewrite H4. unfold lenN. rewrite Hlen, H2, H3. destruct p; simpl; rewrite Hu;
  destruct (mint_index (sa_mint r) ix ctr) as [[i ix'] ctr']; done.
Qed.
Lemma type_mint E a p v r ix ctr : live_with E a p v -> unpack_mint v = Some r ->
  account_type E a ix ctr = Done (Some (TPMint (of_spl_mint p a r None), ix, ctr)).
Proof.
  intros Hl Hu. unfold account_type. rewrite (live_gate _ _ _ _ Hl). destruct Hl as [H1 H2 H3 H4].
  pose proof (unpack_length _ _ _ _ Hu) as Hlen. rewrite H4. unfold lenN. rewrite Hlen, H2, H3. destruct p; simpl; by rewrite Hu.
Qed.
Lemma type_multisig E a p v r ix ctr : live_with E a p v -> unpack_multisig v = Some r ->
  account_type E a ix ctr = Done (Some (TPMulti (of_spl_multisig p a r) (d_pubkey a), ix, ctr)).
Proof.
  intros Hl Hu. unfold account_type. rewrite (live_gate _ _ _ _ Hl). destruct Hl as [H1 H2 H3 H4].
  pose proof (unpack_length _ _ _ _ Hu) as Hlen. rewrite H4. unfold lenN. rewrite Hlen, H2, H3. destruct p; simpl; by rewrite Hu.
Qed.
(** What is accepted, completely. *)
Lemma unpack_other_length {A} n (d : dec A) v : length v <> n -> unpack_unchecked n d v = None.
Proof. unfold unpack_unchecked. by destruct (Nat.eqb_spec (length v) n). Qed.
Lemma type_live E a p v ix ctr : live_with E a p v ->
  account_type E a ix ctr = Done (
    match unpack_mint v with
    | Some r => Some (TPMint (of_spl_mint p a r None), ix, ctr)
    | None => match unpack_account v with
      | Some r => Some (let '(i, ix', ctr') := mint_index (sa_mint r) ix ctr in (TPToken (of_spl_account p a r i None), ix', ctr'))
      | None => match unpack_multisig v with
        | Some r => Some (TPMulti (of_spl_multisig p a r) (d_pubkey a), ix, ctr)
        | None => None
        end
      end
    end).
Proof.
  intros Hl. destruct (unpack_mint v) as [r|] eqn:Hm; [by apply type_mint with (v := v)|].
  destruct (unpack_account v) as [r|] eqn:Ha; [by apply type_token with (v := v)|].
  destruct (unpack_multisig v) as [r|] eqn:Hs; [by apply type_multisig with (v := v)|].
  unfold account_type. rewrite (live_gate _ _ _ _ Hl). destruct Hl as [H1 H2 H3 H4]. rewrite H4, H2, H3.
  destruct p; simpl; rewrite Hm, Ha, Hs.
  - by destruct (lenN v =? 82), (lenN v =? 165).
  - destruct (lenN v =? 82); [done|]. destruct (lenN v =? 165); [done|]. destruct (lenN v =? 355); [done|].
    destruct (N.ltb_spec 165 (lenN v)); [|done].
    destruct (lookup_lt_is_Some_2 v 165) as [k Hk]; [unfold lenN in *; lia|]. rewrite Hk. simpl.
    destruct (b2n k =? 1); [done|]. by destruct (b2n k =? 2).
Qed.

Lemma token_back E a p v r i mints m slot wv : live_with E a p v -> unpack_account v = Some r ->
  mints !! i = Some m -> ma_pubkey m = sa_mint r ->
  token_to_acct (of_spl_account p a r i None) slot wv mints =
    Done (Some (Acct (d_pubkey a) (Account (rent_minimum 165) (DRaw (pack_account (norm_delegated r))) (d_owner a) false (2 ^ 64 - 1)) slot wv)).
Proof.
  intros [H1 H2 _ _] _ Hi Hm. unfold token_to_acct. simpl. apply N.eqb_neq in H1. rewrite H1, Hi. cbn [unwrap mbind res_bind]. rewrite Hm, H2.
  cbn [ta_program of_spl_account ta_extra default].
  assert (forall x, (match p with TokenP => pack_account x | Token2022P => pack_account x ++ [] end) = pack_account x) as ->.
  { intros x. destruct p; [done|]. apply app_nil_r. }
  unfold lenN. rewrite pack_account_length. unfold norm_delegated. by destruct (sa_delegate r).
Qed.
Lemma mint_back a p r slot wv : d_owner a = program_pk p ->
  mint_to_acct (of_spl_mint p a r None) slot wv =
    Acct (d_pubkey a) (Account (d_lamports a) (DRaw (pack_mint r)) (d_owner a) false (2 ^ 64 - 1)) slot wv.
Proof. intros Ho. unfold mint_to_acct. simpl. rewrite <- Ho. destruct p; by destruct r. Qed.
Definition compact (l : list pubkey) : list pubkey := live_signers l ++ replicate (length l - length (live_signers l)) 0.
Lemma live_signers_length l : (length (live_signers l) <= length l)%nat.
Proof. apply filter_length. Qed.
Lemma multisig_back a p r slot wv : d_owner a = program_pk p -> length (ms_signers r) = max_signers ->
  multisig_to_acct (of_spl_multisig p a r) (d_pubkey a) slot wv =
    Done (Acct (d_pubkey a) (Account (d_lamports a)
      (DRaw (pack_multisig (SplMultisig (ms_m r) (ms_n r) (ms_init r) (compact (ms_signers r))))) (d_owner a) false (2 ^ 64 - 1)) slot wv).
Proof.
  intros Ho Hl. unfold multisig_to_acct. simpl mu_signers.
  pose proof (live_signers_length (ms_signers r)) as H. rewrite Hl in H.
  destruct (Nat.leb_spec (length (live_signers (ms_signers r))) max_signers); [|lia].
  unfold compact. rewrite Ho, Hl. reflexivity.
Qed.
