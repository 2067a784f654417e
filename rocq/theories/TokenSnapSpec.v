(** Specification vocabulary for token program snapshots. *)
From Verif Require Import Base DataModel FilterModel StoreModel TokenModel SplModel TokenUtilsModel TokenPendModel TokenStoreModel TokenStoreSpec.

(** What the code relies on of the raw LZ4 block codec: what was compressed comes back when the buffer is large enough,
    and nothing else ever does. *)
Definition lawful (X : lz4x) : Prop :=
  forall b c n, lx_block X b = Some c ->
    (lenN b <= n -> lx_unblock X n c = Some b) /\ forall b', lx_unblock X n c = Some b' -> b' = b.

(** Values fit the machine types of their fields. *)
Definition opt_below (n : N) (o : option N) : Prop := forall x, o = Some x -> x < n.
Definition mint_fits (m : mint_account) : Prop :=
  ma_pubkey m < 2 ^ 256 /\ ma_lamports m < 2 ^ 64 /\ ma_supply m < 2 ^ 64 /\ ma_decimals m < 256 /\
  opt_below (2 ^ 256) (ma_authority m) /\ opt_below (2 ^ 256) (ma_freeze m) /\ forall x, ma_extra m = Some x -> lenN x < 2 ^ 64.
Definition multi_fits (m : multisig) : Prop :=
  mu_pubkey m < 2 ^ 256 /\ mu_lamports m < 2 ^ 64 /\ mu_m m < 256 /\ mu_n m < 256 /\
  (forall x, x ∈ mu_signers m -> x < 2 ^ 256) /\ lenN (mu_signers m) < 2 ^ 64.
Definition store_fits (ts : tstore) : Prop :=
  (forall i m, ts_mints ts !! i = Some m -> mint_fits m) /\ (forall pk m, ts_multi ts !! pk = Some m -> multi_fits m) /\
  lenN (map_to_list (ts_multi ts)) < 2 ^ 64 /\ lenN (tb_accounts (ts_table ts)) < 2 ^ 64.

(** The answer without its slot, which a snapshot does not carry. *)
Definition slot0 (a : acct) : acct := Acct (d_pubkey a) (d_account a) 0 (d_wv a).
Definition of_owner (p : pubkey) (o : option acct) : option acct :=
  match o with Some a => if d_owner a =? p then Some a else None | None => None end.

(** Every token account can be read, and the mint its data names is known and belongs to the same program. *)
Definition mints_known (E : ext) (X : lz4x) (l : list tsop) (ts : tstore) : Prop :=
  forall pk, token_key E l pk -> exists o, ts_get ts pk Finalized = Done (ROk o) /\
    forall a v mk, o = Some a -> d_data a = DRaw v -> mk < 2 ^ 256 -> take 32 v = le 32 mk ->
      exists m, mint_state (ts_log E X ts_empty l).*1 mk = Some m /\ program_pk (ma_program m) = d_owner a.
