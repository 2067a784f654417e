(** Property theorem C09 (compression is transparent). *)
From Verif Require Import Base DataModel FilterModel FilterSpec FilterProofs FilterProps.

(** Contract of the compression libraries: what was compressed decompresses to itself
    (zstd is called with a capacity of 64 MiB, account_data.rs 10 and 78). *)
Definition max_account_size : N := 67108864.
Definition lossless (E : ext) : Prop :=
  (forall l d b, x_lz4c E l d = Some b -> x_lz4d E b = Some d) /\
  (forall l d b, lenN d <= max_account_size -> x_zstdc E l d = Some b -> x_zstdd E b = Some d).

Lemma data_new_transparent E d m x :
  lossless E -> lenN d <= max_account_size -> data_new E d m = Done x ->
  data_bytes E x = Done d /\ data_len x = lenN d /\ (data_is_empty x = true <-> d = []).
Proof.
  intros [Hl Hz] Hmax. assert (lenN d =? 0 = true <-> d = []) as Hemp.
  { rewrite N.eqb_eq. destruct d; unfold lenN; simpl; [done|]. split; [lia|done]. }
  destruct m as [|l|l]; simpl.
  - intros [= <-]. done.
  - destruct (x_lz4c E l d) as [b|] eqn:Hb; simpl; [|done]. intros [= <-]. simpl.
    by rewrite (Hl _ _ _ Hb).
  - destruct (x_zstdc E l d) as [b|] eqn:Hb; simpl; [|done]. intros [= <-]. simpl.
    by rewrite (Hz _ _ _ Hmax Hb).
Qed.

(** C09: bytes, length and every condition are the same as on the uncompressed account. *)
Theorem C09_compression_transparent : forall E a m x,
  lossless E -> lenN (s_data a) <= max_account_size -> from_solana E a m = Done x ->
  to_solana E x = Done a /\ data_len (a_data x) = lenN (s_data a) /\
  (data_is_empty (a_data x) = true <-> s_data a = []) /\
  (forall c pk s wv, decodable_cond E c ->
     acct_allows E (Acct pk x s wv) (to_rpc c) = allows E c (s_data a)).
Proof.
  intros E [lam d own ex re] m x Hl Hmax. unfold from_solana. simpl in *.
  destruct (data_new E d m) as [y|] eqn:Hy; simpl; [|done]. intros [= <-]. simpl.
  destruct (data_new_transparent E d m y Hl Hmax Hy) as (Hb & Hlen & He).
  split; [unfold to_solana; simpl; by rewrite Hb|]. split; [done|]. split; [done|].
  intros c pk s wv Hc. by apply rpc_direct.
Qed.
Print Assumptions C09_compression_transparent.
Example C09_example_hyps : lossless ext_sample /\
  from_solana ext_sample (SolAccount 5 (bs [1;2]) 7 false 9) (CZstd 3) = Done (Account 5 (DZstd (bs [1;2]) 2) 7 false 9).
Proof. split; [|done]. split; simpl; intros; by simplify_eq. Qed.
