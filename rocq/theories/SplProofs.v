(** Packing and unpacking of the token program layouts. *)
From Verif Require Import Base DataModel BincodeModel BincodeProofs TokenModel TokenProofs SplModel.
#[local] Arguments le : simpl never.
#[local] Arguments unle : simpl never.

Definition opt_lt (n : nat) (o : option N) : Prop := forall p, o = Some p -> p < 256 ^ N.of_nat n.
Definition sa_ok (a : spl_account) : Prop :=
  sa_mint a < 2 ^ 256 /\ sa_owner a < 2 ^ 256 /\ sa_amount a < 2 ^ 64 /\ opt_lt 32 (sa_delegate a) /\
  opt_lt 8 (sa_native a) /\ sa_delegated a < 2 ^ 64 /\ opt_lt 32 (sa_close a).
Definition smint_ok (m : spl_mint) : Prop :=
  opt_lt 32 (sm_authority m) /\ sm_supply m < 2 ^ 64 /\ sm_decimals m < 256 /\ opt_lt 32 (sm_freeze m).
Definition sms_ok (m : spl_multisig) : Prop :=
  ms_m m < 256 /\ ms_n m < 256 /\ length (ms_signers m) = max_signers /\ Forall (fun p => p < 2 ^ 256) (ms_signers m).

Lemma copt_codec n : codec (e_copt n) (d_copt n) (opt_lt n).
Proof.
  intros o r Ho. unfold d_copt, d_bind, e_copt. destruct o as [p|]; rewrite <- app_assoc, uint_codec by done;
    rewrite uint_codec; try done.
  - by apply Ho.
  - induction n; [done|]. rewrite Nat2N.inj_succ, N.pow_succ_r'. lia.
Qed.
Lemma state_codec : codec e_state d_state (fun _ => True).
Proof. intros s r _. unfold d_state, d_bind, e_state, d_u8, e_u8. rewrite uint_codec by (by destruct s). by destruct s. Qed.
Ltac dstep := first
  [ rewrite uint_codec by (done || lia) | rewrite copt_codec by done | rewrite state_codec by done
  | rewrite bool_codec by done ]; cbv beta iota.
Lemma spl_account_codec : codec pack_account d_spl_account sa_ok.
Proof.
  intros a r (H1 & H2 & H3 & H4 & H5 & H6 & H7). unfold d_spl_account, pack_account, d_bind. rewrite <- !app_assoc.
  repeat dstep. by destruct a.
Qed.
Lemma spl_mint_codec : codec pack_mint d_spl_mint smint_ok.
Proof.
  intros a r (H1 & H2 & H3 & H4). unfold d_spl_mint, pack_mint, d_bind. rewrite <- !app_assoc.
  repeat dstep. by destruct a.
Qed.
Lemma key_codec : codec (le 32) (d_uint 32) (fun p => p < 2 ^ 256).
Proof. intros p r Hp. by apply uint_codec. Qed.
Lemma spl_multisig_codec : codec pack_multisig d_spl_multisig sms_ok.
Proof.
  intros a r (H1 & H2 & H3 & H4). unfold d_spl_multisig, pack_multisig, d_bind. rewrite <- !app_assoc.
  repeat dstep. rewrite <- H3. rewrite (rep_codec (le 32) _ (fun p => p < 2 ^ 256)) by (done || apply key_codec). by destruct a.
Qed.
Lemma copt_length n o : length (e_copt n o) = (4 + n)%nat.
Proof. destruct o as [p|]; cbn [e_copt]; rewrite app_length, !le_length; done. Qed.
Lemma pack_account_length a : length (pack_account a) = 165%nat.
Proof. unfold pack_account. rewrite !app_length, !copt_length, !le_length. done. Qed.
Lemma pack_mint_length a : length (pack_mint a) = 82%nat.
Proof. unfold pack_mint. rewrite !app_length, !copt_length, !le_length. done. Qed.
Lemma concat_keys_length l : length (concat (map (le 32) l)) = (32 * length l)%nat.
Proof.
  induction l as [|x l IH]; [done|]. change (concat (map (le 32) (x :: l))) with (le 32 x ++ concat (map (le 32) l)).
  rewrite app_length, le_length, IH. simpl length. lia.
Qed.
Lemma pack_multisig_length a : length (ms_signers a) = max_signers -> length (pack_multisig a) = 355%nat.
Proof.
  intros H. unfold pack_multisig. rewrite !app_length, concat_keys_length, !le_length. fold pubkey in *.
  replace (length (ms_signers a)) with max_signers by (symmetry; exact H). by destruct (ms_init a).
Qed.
Lemma unpack_pack {A} (e : A -> bytes) d P n a : codec e d P -> P a -> length (e a) = n -> unpack_unchecked n d (e a) = Some a.
Proof.
  intros Hc Ha <-. unfold unpack_unchecked. rewrite Nat.eqb_refl. pose proof (Hc a [] Ha) as H. rewrite app_nil_r in H. by rewrite H.
Qed.
Lemma unpack_pack_account a : sa_ok a -> unpack_account (pack_account a) = Some a.
Proof. intros H. apply (unpack_pack pack_account d_spl_account sa_ok); [apply spl_account_codec|done|apply pack_account_length]. Qed.
Lemma unpack_pack_mint a : smint_ok a -> unpack_mint (pack_mint a) = Some a.
Proof. intros H. apply (unpack_pack pack_mint d_spl_mint smint_ok); [apply spl_mint_codec|done|apply pack_mint_length]. Qed.
Lemma unpack_pack_multisig a : sms_ok a -> unpack_multisig (pack_multisig a) = Some a.
Proof. intros H. apply (unpack_pack pack_multisig d_spl_multisig sms_ok); [apply spl_multisig_codec|done|apply pack_multisig_length, H]. Qed.

(** What is unpacked is in range. *)
Definition dpost {A} (d : dec A) (P : A -> Prop) : Prop := forall b a r, d b = Some (a, r) -> P a.
Lemma dpost_bind {A B} (d : dec A) (f : A -> dec B) P Q : dpost d P -> (forall a, P a -> dpost (f a) Q) -> dpost (d_bind d f) Q.
Proof. intros Hd Hf b x r. unfold d_bind. destruct (d b) as [[a r']|] eqn:He; [|done]. apply Hf. by eapply Hd. Qed.
Lemma dpost_ret {A} (a : A) (P : A -> Prop) : P a -> dpost (d_ret a) P.
Proof. intros H b x r [= <- _]. done. Qed.
Lemma dpost_fail {A} (P : A -> Prop) : dpost d_fail P.
Proof. by intros b x r. Qed.
Lemma uint_post n : dpost (d_uint n) (fun x => x < 256 ^ N.of_nat n).
Proof.
  intros b a r. unfold d_uint, d_bind, d_take. destruct (Nat.leb_spec n (length b)) as [Hl|]; [|done]. intros [= <- _].
  pose proof (unle_lt (take n b)) as H. unfold lenN in H. by rewrite take_length_le in H.
Qed.
Lemma copt_post n : dpost (d_copt n) (opt_lt n).
Proof.
  eapply dpost_bind; [apply (uint_post 4)|]. intros t _. eapply dpost_bind; [apply uint_post|]. intros x Hx.
  destruct (t =? 0); [by apply dpost_ret|]. destruct (t =? 1); [|apply dpost_fail]. apply dpost_ret. by intros p [= <-].
Qed.
Lemma state_post : dpost d_state (fun _ => True).
Proof. done. Qed.
Lemma spl_account_post : dpost d_spl_account sa_ok.
Proof.
  eapply dpost_bind; [apply (uint_post 32)|]. intros m Hm. eapply dpost_bind; [apply (uint_post 32)|]. intros o Ho.
  eapply dpost_bind; [apply (uint_post 8)|]. intros n Hn. eapply dpost_bind; [apply copt_post|]. intros d Hd.
  eapply dpost_bind; [apply state_post|]. intros s _. eapply dpost_bind; [apply copt_post|]. intros nt Hnt.
  eapply dpost_bind; [apply (uint_post 8)|]. intros da Hda. eapply dpost_bind; [apply copt_post|]. intros c Hc.
  apply dpost_ret. done.
Qed.
Lemma unpack_account_ok v r : unpack_account v = Some r -> sa_ok r.
Proof.
  unfold unpack_account, unpack_unchecked. destruct (_ =? _)%nat; [|done]. destruct (d_spl_account v) as [[a x]|] eqn:He; [|done].
  simpl. intros [= <-]. by eapply spl_account_post.
Qed.
Lemma unpack_length {A} n (d : dec A) v r : unpack_unchecked n d v = Some r -> length v = n.
Proof. unfold unpack_unchecked. destruct (Nat.eqb_spec (length v) n); done. Qed.
Lemma spl_mint_post : dpost d_spl_mint smint_ok.
Proof.
  eapply dpost_bind; [apply copt_post|]. intros a Ha. eapply dpost_bind; [apply (uint_post 8)|]. intros s Hs.
  eapply dpost_bind; [apply (uint_post 1)|]. intros d Hd. eapply (dpost_bind _ _ (fun _ => True)); [done|]. intros i _.
  eapply dpost_bind; [apply copt_post|]. intros f Hf. apply dpost_ret. done.
Qed.
Lemma unpack_mint_ok v r : unpack_mint v = Some r -> smint_ok r.
Proof.
  unfold unpack_mint, unpack_unchecked. destruct (_ =? _)%nat; [|done]. destruct (d_spl_mint v) as [[a x]|] eqn:He; [|done].
  simpl. intros [= <-]. by eapply spl_mint_post.
Qed.
Lemma rep_post {A} (d : dec A) P n : dpost d P -> dpost (d_rep d n) (fun l => length l = n /\ Forall P l).
Proof.
  intros Hd. induction n as [|n IH]; simpl; [by apply dpost_ret|].
  eapply dpost_bind; [apply Hd|]. intros a Ha. eapply dpost_bind; [apply IH|]. intros l [Hl Hf]. apply dpost_ret.
  simpl. auto.
Qed.
Lemma spl_multisig_post : dpost d_spl_multisig sms_ok.
Proof.
  eapply dpost_bind; [apply (uint_post 1)|]. intros a Ha. eapply dpost_bind; [apply (uint_post 1)|]. intros s Hs.
  eapply (dpost_bind _ _ (fun _ => True)); [done|]. intros i _.
  eapply dpost_bind; [apply rep_post, (uint_post 32)|]. intros l [Hl Hf]. apply dpost_ret. done.
Qed.
Lemma unpack_multisig_ok v r : unpack_multisig v = Some r -> sms_ok r.
Proof.
  unfold unpack_multisig, unpack_unchecked. destruct (_ =? _)%nat; [|done]. destruct (d_spl_multisig v) as [[a x]|] eqn:He; [|done].
  simpl. intros [= <-]. by eapply spl_multisig_post.
Qed.
