(** Model of [common/src/account_data.rs], [common/src/commitment.rs] and
    [common/src/slot_info.rs]. *)
From Verif Require Import Base.

(** Solana [Pubkey] ([u8; 32]), read as the little-endian number of its 32
    bytes; so the first four bytes are the number modulo 2^32. *)
Definition pubkey := N.
Notation slot := N (only parsing).

(** External libraries whose behaviour is not fixed by the repository: text
    decoders and compression codecs.  All theorems quantify over them.
    - [x_b58 s]: [bs58::decode(s).into_vec()] (account_filter.rs 27-29)
    - [x_b64 s]: [base64 STANDARD .decode(s)] (account_filter.rs 30-32)
    - [x_lz4c level d] / [x_lz4d b]: [lz4::block::compress(d, FAST(level), true)] and
      [lz4::block::decompress(b, None)] (account_data.rs 32-37, 67)
    - [x_zstdc level d] / [x_zstdd b]: [zstd::bulk::compress/decompress]
      (account_data.rs 42, 78).
    [None] is the library's [Err]. *)
Record ext := Ext {
  x_b58 : bytes -> option bytes;
  x_b64 : bytes -> option bytes;
  x_lz4c : Z -> bytes -> option bytes;
  x_lz4d : bytes -> option bytes;
  x_zstdc : Z -> bytes -> option bytes;
  x_zstdd : bytes -> option bytes;
}.

(** [Commitment], commitment.rs 6-12. *)
Inductive commitment := Processed | Confirmed | Finalized.
#[global] Instance commitment_eq_dec : EqDecision commitment.
Proof. solve_decision. Defined.

(** [solana_sdk::CommitmentConfig] levels (1.18): the non-deprecated and the
    deprecated names.  What they mean for a request is in StreamModel.v and RpcModel.v. *)
Inductive commitment_level := LProcessed | LConfirmed | LFinalized
  | LMax | LRecent | LRoot | LSingle | LSingleGossip.

(** [SlotInfo], slot_info.rs. *)
Record slot_info := SlotInfo { si_slot : N; si_parent : N; si_root : N }.

(** [CompressionMethod], account_data.rs 12-17. *)
Inductive compression := CNone | CLz4 (level : Z) | CZstd (level : Z).

(** [Data], account_data.rs 19-24. *)
Inductive adata :=
| DRaw (d : bytes)
| DLz4 (binary : bytes) (len : N)
| DZstd (binary : bytes) (len : N).
#[global] Instance adata_eq_dec : EqDecision adata.
Proof. solve_decision. Defined.

(** [Data::new], account_data.rs 26-46 (both [unwrap]s are panics). *)
Definition data_new (E : ext) (d : bytes) (m : compression) : res adata :=
  match m with
  | CNone => Done (DRaw d)
  | CLz4 level => b ← unwrap (x_lz4c E level d); Done (DLz4 b (lenN d))
  | CZstd level => b ← unwrap (x_zstdc E level d); Done (DZstd b (lenN d))
  end.

(** [Data::len], account_data.rs 48-54. *)
Definition data_len (d : adata) : N :=
  match d with DRaw b => lenN b | DLz4 _ len => len | DZstd _ len => len end.

(** [Data::is_empty], account_data.rs 56-62. *)
Definition data_is_empty (d : adata) : bool :=
  match d with DRaw b => lenN b =? 0 | DLz4 _ len => len =? 0 | DZstd _ len => len =? 0 end.

(** [Data::data], account_data.rs 64-80: panics when decompression fails. *)
Definition data_bytes (E : ext) (d : adata) : res bytes :=
  match d with
  | DRaw b => Done b
  | DLz4 b _ => unwrap (x_lz4d E b)
  | DZstd b _ => unwrap (x_zstdd E b)
  end.

(** [Account], account_data.rs 83-95. *)
Record account := Account {
  a_lamports : N; a_data : adata; a_owner : pubkey; a_executable : bool; a_rent_epoch : N }.
#[global] Instance account_eq_dec : EqDecision account.
Proof. solve_decision. Defined.

(** [AccountData], account_data.rs 122-128. *)
Record acct := Acct {
  d_pubkey : pubkey; d_account : account; d_slot : N; d_wv : N }.
#[global] Instance acct_eq_dec : EqDecision acct.
Proof. solve_decision. Defined.
Notation d_owner a := (a_owner (d_account a)).
Notation d_lamports a := (a_lamports (d_account a)).
Notation d_data a := (a_data (d_account a)).

(** [PartialEq for AccountData], account_data.rs 143-149: ignores the write version. *)
Definition acct_eqb (a b : acct) : bool :=
  bool_decide (d_pubkey a = d_pubkey b) && bool_decide (d_account a = d_account b)
  && (d_slot a =? d_slot b).

(** [solana_sdk::account::Account]. *)
Record sol_account := SolAccount {
  s_lamports : N; s_data : bytes; s_owner : pubkey; s_executable : bool; s_rent_epoch : N }.
(** [Account::from_solana_account], account_data.rs 98-109. *)
Definition from_solana (E : ext) (a : sol_account) (m : compression) : res account :=
  d ← data_new E (s_data a) m;
  Done (Account (s_lamports a) d (s_owner a) (s_executable a) (s_rent_epoch a)).
(** [Account::to_solana_account], account_data.rs 111-119. *)
Definition to_solana (E : ext) (a : account) : res sol_account :=
  d ← data_bytes E (a_data a);
  Done (SolAccount (a_lamports a) d (a_owner a) (a_executable a) (a_rent_epoch a)).
