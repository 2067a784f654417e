(** The account layouts of [spl_token] 4.0.0 and [spl_token_2022] 3.0.4 ([state.rs]) and the provided
    methods of [solana_program::program_pack::Pack] 1.18 that [token_program_utils.rs] calls.  These
    are external crates: the definitions below record their behaviour and are part of the trusted
    base.  The two crates use the same layouts for the base state. *)
From Verif Require Import Base DataModel BincodeModel TokenModel.

(** Program ids, as little-endian numbers of their 32 bytes
    (TokenkegQfeZyiNwAJbNbGKPFXCWuBvf9Ss623VQ5DA, TokenzQdBNbLqP5VEhdkAS6EPFLC1PHnBqCXEpPxuEb). *)
Definition spl_token_id : pubkey := 76442634766951278574851011470472957949510043171089429576505158730255542181126.
Definition spl_2022_id : pubkey := 114229546593812868309265069424466110816696351698675722272150287043719526276358.

(** [COption<T>]: a four byte tag, then the value; a packed [None] leaves the value bytes of the
    destination untouched (here: zero, the destination is always a fresh zeroed vector). *)
Definition e_copt (n : nat) (o : option N) : bytes :=
  match o with Some p => le 4 1 ++ le n p | None => le 4 0 ++ le n 0 end.
Definition d_copt (n : nat) : dec (option N) :=
  t <~ d_uint 4;; x <~ d_uint n;;
  if t =? 0 then d_ret None else if t =? 1 then d_ret (Some x) else d_fail.
(** [is_initialized] bytes: 0 or 1. *)

(** [state::Account], 165 bytes. *)
Record spl_account := SplAccount {
  sa_mint : pubkey; sa_owner : pubkey; sa_amount : N; sa_delegate : option pubkey; sa_state : tstate;
  sa_native : option N; sa_delegated : N; sa_close : option pubkey }.
#[global] Instance spl_account_eq_dec : EqDecision spl_account.
Proof. solve_decision. Defined.
Definition e_state (s : tstate) : bytes := e_u8 match s with Uninit => 0 | Init => 1 | Frozen => 2 end.
Definition d_state : dec tstate :=
  x <~ d_u8;; if x =? 0 then d_ret Uninit else if x =? 1 then d_ret Init else if x =? 2 then d_ret Frozen else d_fail.
(** [Account::pack_into_slice] on a zeroed destination. *)
Definition pack_account (a : spl_account) : bytes :=
  le 32 (sa_mint a) ++ le 32 (sa_owner a) ++ le 8 (sa_amount a) ++ e_copt 32 (sa_delegate a) ++
  e_state (sa_state a) ++ e_copt 8 (sa_native a) ++ le 8 (sa_delegated a) ++ e_copt 32 (sa_close a).
Definition d_spl_account : dec spl_account :=
  m <~ d_uint 32;; o <~ d_uint 32;; n <~ d_uint 8;; d <~ d_copt 32;; s <~ d_state;; nt <~ d_copt 8;;
  da <~ d_uint 8;; c <~ d_copt 32;; d_ret (SplAccount m o n d s nt da c).

(** [state::Mint], 82 bytes. *)
Record spl_mint := SplMint {
  sm_authority : option pubkey; sm_supply : N; sm_decimals : N; sm_init : bool; sm_freeze : option pubkey }.
#[global] Instance spl_mint_eq_dec : EqDecision spl_mint.
Proof. solve_decision. Defined.
Definition pack_mint (m : spl_mint) : bytes :=
  e_copt 32 (sm_authority m) ++ le 8 (sm_supply m) ++ le 1 (sm_decimals m) ++ e_bool (sm_init m) ++ e_copt 32 (sm_freeze m).
Definition d_spl_mint : dec spl_mint :=
  a <~ d_copt 32;; s <~ d_uint 8;; d <~ d_uint 1;; i <~ d_bool;; f <~ d_copt 32;; d_ret (SplMint a s d i f).

(** [state::Multisig], 355 bytes, [MAX_SIGNERS] = 11. *)
Record spl_multisig := SplMultisig { ms_m : N; ms_n : N; ms_init : bool; ms_signers : list pubkey }.
#[global] Instance spl_multisig_eq_dec : EqDecision spl_multisig.
Proof. solve_decision. Defined.
Definition max_signers : nat := 11.
Definition pack_multisig (m : spl_multisig) : bytes :=
  le 1 (ms_m m) ++ le 1 (ms_n m) ++ e_bool (ms_init m) ++ concat (map (le 32) (ms_signers m)).
Definition d_spl_multisig : dec spl_multisig :=
  m <~ d_uint 1;; n <~ d_uint 1;; i <~ d_bool;; s <~ d_rep (d_uint 32) max_signers;; d_ret (SplMultisig m n i s).

(** [Pack::unpack_unchecked]: rejects any length other than [LEN], then [unpack_from_slice]. *)
Definition unpack_unchecked {A} (len : nat) (d : dec A) (v : bytes) : option A :=
  if (length v =? len)%nat then fst <$> d v else None.
Definition unpack_account : bytes -> option spl_account := unpack_unchecked 165 d_spl_account.
Definition unpack_mint : bytes -> option spl_mint := unpack_unchecked 82 d_spl_mint.
Definition unpack_multisig : bytes -> option spl_multisig := unpack_unchecked 355 d_spl_multisig.

(** [Rent::default().minimum_balance(len)]: (len + 128) * 3480 * 2.0. *)
Definition rent_minimum (len : N) : N := (len + 128) * 6960.
