(** Round trip and prefix lemmas for the bincode codecs. *)
From Verif Require Import Base DataModel BincodeModel.

#[local] Arguments le : simpl never.
#[local] Arguments d_uint : simpl never.
Definition codec {A} (e : A -> bytes) (d : dec A) (P : A -> Prop) : Prop :=
  forall a r, P a -> d (e a ++ r) = Some (a, r).
(** Reading more bytes does not change what was decoded. *)
Definition dmono {A} (d : dec A) : Prop := forall b a r x, d b = Some (a, r) -> d (b ++ x) = Some (a, r ++ x).

Lemma take_codec n b r : length b = n -> d_take n (b ++ r) = Some (b, r).
Proof.
  intros <-. unfold d_take. rewrite app_length. destruct (Nat.leb_spec (length b) (length b + length r)); [|lia].
  by rewrite take_app, drop_app.
Qed.
Lemma take_mono n : dmono (d_take n).
Proof.
  intros b a r x. unfold d_take. destruct (Nat.leb_spec n (length b)); [|done]. intros [= <- <-].
  rewrite app_length. destruct (Nat.leb_spec n (length b + length x)); [|lia].
  by rewrite take_app_le, drop_app_le by lia.
Qed.
Lemma ret_mono {A} (a : A) : dmono (d_ret a).
Proof. intros b a' r x [= <- <-]. done. Qed.
Lemma fail_mono {A} : dmono (@d_fail A).
Proof. intros b a r x. done. Qed.
Lemma bind_mono {A B} (d : dec A) (f : A -> dec B) : dmono d -> (forall a, dmono (f a)) -> dmono (d_bind d f).
Proof.
  intros Hd Hf b a r x. unfold d_bind. destruct (d b) as [[a' r']|] eqn:H; [|done].
  intros Hr. rewrite (Hd _ _ _ x H). by apply Hf.
Qed.
Lemma uint_codec k n r : n < 256 ^ N.of_nat k -> d_uint k (le k n ++ r) = Some (n, r).
Proof.
  intros Hn. unfold d_uint, d_bind. rewrite take_codec by apply le_length. unfold d_ret. by rewrite unle_le_small.
Qed.
Lemma uint_mono k : dmono (d_uint k).
Proof. apply bind_mono; [apply take_mono|intros; apply ret_mono]. Qed.
Lemma bool_codec : codec e_bool d_bool (fun _ => True).
Proof.
  intros [] r _; unfold e_bool, d_bool, d_bind, e_u8, d_u8; rewrite uint_codec by done; done.
Qed.
Lemma bool_mono : dmono d_bool.
Proof.
  apply bind_mono; [apply uint_mono|]. intros n. destruct (n =? 0); [apply ret_mono|]. destruct (n =? 1); [apply ret_mono|apply fail_mono].
Qed.
Lemma option_codec {A} (e : A -> bytes) d P : codec e d P ->
  codec (e_option e) (d_option d) (fun o => match o with Some a => P a | None => True end).
Proof.
  intros H [a|] r Ha; unfold e_option, d_option, d_bind, e_u8, d_u8.
  - rewrite <- app_assoc, uint_codec by done. simpl. rewrite (H _ _ Ha). done.
  - by rewrite uint_codec by done.
Qed.
Lemma option_mono {A} (d : dec A) : dmono d -> dmono (d_option d).
Proof.
  intros H. apply bind_mono; [apply uint_mono|]. intros n. destruct (n =? 0); [apply ret_mono|].
  destruct (n =? 1); [|apply fail_mono]. apply bind_mono; [done|]. intros; apply ret_mono.
Qed.
Lemma rep_codec {A} (e : A -> bytes) d P l r : codec e d P -> Forall P l ->
  d_rep d (length l) (concat (map e l) ++ r) = Some (l, r).
Proof.
  intros H. induction 1 as [|a l Ha _ IH]; simpl; [done|].
  unfold d_bind. rewrite <- app_assoc, (H _ _ Ha), IH. done.
Qed.
Lemma rep_mono {A} (d : dec A) n : dmono d -> dmono (d_rep d n).
Proof.
  intros H. induction n as [|n IH]; simpl; [apply ret_mono|]. apply bind_mono; [done|].
  intros a. apply bind_mono; [done|]. intros; apply ret_mono.
Qed.
Lemma concat_length_ge {A} (e : A -> bytes) l : (forall a, (1 <= length (e a))%nat) -> (length l <= length (concat (map e l)))%nat.
Proof. intros H. induction l as [|a l IH]; simpl; [done|]. rewrite app_length. specialize (H a). lia. Qed.
Lemma list_codec {A} (e : A -> bytes) d P : codec e d P -> (forall a, (1 <= length (e a))%nat) ->
  codec (e_list e) (d_list d) (fun l => Forall P l /\ lenN l < 2 ^ 64).
Proof.
  intros H H1 l r [Hl Hn]. unfold e_list, d_list, d_bind, e_u64, d_u64. rewrite <- app_assoc.
  rewrite uint_codec by done. pose proof (concat_length_ge e l H1).
  destruct (N.ltb_spec (lenN (concat (map e l) ++ r)) (lenN l)) as [Hlt|_].
  { unfold lenN in Hlt. rewrite app_length in Hlt. lia. }
  unfold lenN. rewrite Nat2N.id. by apply rep_codec with P.
Qed.
Lemma guard_mono {A} (n : N) (d : dec A) : dmono d -> dmono (fun b => if lenN b <? n then None else d b).
Proof.
  intros H b a r x. destruct (N.ltb_spec (lenN b) n); [done|]. intros Hd.
  destruct (N.ltb_spec (lenN (b ++ x)) n) as [Hlt|_]; [|by apply H].
  unfold lenN in *. rewrite app_length in Hlt. lia.
Qed.
Lemma list_mono {A} (d : dec A) : dmono d -> dmono (d_list d).
Proof. intros H. apply bind_mono; [apply uint_mono|]. intros n. apply guard_mono. by apply rep_mono. Qed.
Lemma bytes_codec : codec e_bytes d_bytes (fun b => lenN b < 2 ^ 64).
Proof.
  intros b r Hb. unfold e_bytes, d_bytes, d_bind, e_u64, d_u64. rewrite <- app_assoc, uint_codec by done.
  destruct (N.ltb_spec (lenN (b ++ r)) (lenN b)) as [Hlt|_].
  { unfold lenN in Hlt. rewrite app_length in Hlt. lia. }
  unfold lenN. rewrite Nat2N.id. by apply take_codec.
Qed.
Lemma bytes_mono : dmono d_bytes.
Proof. apply bind_mono; [apply uint_mono|]. intros n. apply guard_mono, take_mono. Qed.

(** Machine ranges. *)
Definition data_in_range (d : adata) : Prop :=
  match d with DRaw b => lenN b < 2 ^ 64 | DLz4 b n | DZstd b n => lenN b < 2 ^ 64 /\ n < 2 ^ 64 end.
Definition account_in_range (a : account) : Prop :=
  a_lamports a < 2 ^ 64 /\ data_in_range (a_data a) /\ a_owner a < 2 ^ 256 /\ a_rent_epoch a < 2 ^ 64.
Definition acct_in_range (a : acct) : Prop :=
  d_pubkey a < 2 ^ 256 /\ account_in_range (d_account a) /\ d_slot a < 2 ^ 64 /\ d_wv a < 2 ^ 64.

Lemma adata_codec : codec e_adata d_adata data_in_range.
Proof.
  intros [b|b n|b n] r H; simpl in H; unfold e_adata, d_adata, d_bind, e_u32, d_u32; rewrite <- ?app_assoc;
    rewrite uint_codec by done.
  - change (d_bind d_bytes (fun b => d_ret (DRaw b)) (e_bytes b ++ r) = Some (DRaw b, r)). unfold d_bind. by rewrite bytes_codec.
  - change (d_bind d_bytes (fun b => d_bind d_u64 (fun n => d_ret (DLz4 b n))) (e_bytes b ++ e_u64 n ++ r) = Some (DLz4 b n, r)).
    destruct H. unfold d_bind. rewrite bytes_codec by done. unfold e_u64, d_u64. by rewrite uint_codec.
  - change (d_bind d_bytes (fun b => d_bind d_u64 (fun n => d_ret (DZstd b n))) (e_bytes b ++ e_u64 n ++ r) = Some (DZstd b n, r)).
    destruct H. unfold d_bind. rewrite bytes_codec by done. unfold e_u64, d_u64. by rewrite uint_codec.
Qed.
Lemma adata_mono : dmono d_adata.
Proof.
  apply bind_mono; [apply uint_mono|]. intros n.
  repeat (match goal with |- dmono (if ?b then _ else _) => destruct b end);
    repeat first [apply fail_mono | apply ret_mono | apply bytes_mono | apply uint_mono | apply bind_mono; [|intros]].
Qed.
Lemma account_codec : codec e_account d_account_ account_in_range.
Proof.
  intros [l d o x e] r (H1 & H2 & H3 & H4). simpl in H1, H2, H3, H4. unfold e_account, d_account_, d_bind. cbn [a_lamports a_data a_owner a_executable a_rent_epoch].
  rewrite <- !app_assoc. unfold e_u64, d_u64, e_pubkey, d_pubkey_.
  rewrite uint_codec by done. cbv beta iota. rewrite adata_codec by done. cbv beta iota.
  rewrite uint_codec by done. cbv beta iota. rewrite bool_codec by done. cbv beta iota. by rewrite uint_codec.
Qed.
Lemma account_mono : dmono d_account_.
Proof. repeat first [apply ret_mono | apply adata_mono | apply bool_mono | apply uint_mono | apply bind_mono; [|intros]]. Qed.
Lemma acct_codec : codec e_acct d_acct acct_in_range.
Proof.
  intros [p a s w] r (H1 & H2 & H3 & H4). simpl in H1, H2, H3, H4. unfold e_acct, d_acct, d_bind. cbn [d_pubkey d_account d_slot d_wv].
  rewrite <- !app_assoc. unfold e_u64, d_u64, e_pubkey, d_pubkey_.
  rewrite uint_codec by done. cbv beta iota. rewrite account_codec by done. cbv beta iota.
  rewrite uint_codec by done. cbv beta iota. by rewrite uint_codec.
Qed.
Lemma acct_mono : dmono d_acct.
Proof. repeat first [apply ret_mono | apply account_mono | apply uint_mono | apply bind_mono; [|intros]]. Qed.
Lemma e_acct_length a : (1 <= length (e_acct a))%nat.
Proof. unfold e_acct. rewrite app_length. unfold e_pubkey. rewrite le_length. lia. Qed.

Lemma accounts_codec l r : Forall acct_in_range l -> lenN l < 2 ^ 64 ->
  d_list d_acct (bincode_accounts l ++ r) = Some (l, r).
Proof. intros Hl Hn. apply (list_codec e_acct d_acct _ acct_codec e_acct_length). done. Qed.
Lemma unbincode_bincode l : Forall acct_in_range l -> lenN l < 2 ^ 64 -> unbincode_accounts (bincode_accounts l) = Some l.
Proof. intros Hl Hn. unfold unbincode_accounts. rewrite <- (app_nil_r (bincode_accounts l)). by rewrite accounts_codec. Qed.
Lemma unbincode_truncated l b1 b2 : Forall acct_in_range l -> lenN l < 2 ^ 64 ->
  bincode_accounts l = b1 ++ b2 -> b2 <> [] -> unbincode_accounts b1 = None.
Proof.
  intros Hl Hn Hb H2. unfold unbincode_accounts. destruct (d_list d_acct b1) as [[l' r]|] eqn:Hd; [|done]. exfalso.
  pose proof (list_mono _ acct_mono _ _ _ b2 Hd) as H. rewrite <- Hb in H.
  pose proof (accounts_codec l [] Hl Hn) as H'. rewrite app_nil_r in H'. rewrite H' in H. injection H as _ H.
  destruct r; [by destruct H2|done].
Qed.
