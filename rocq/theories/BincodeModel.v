(** bincode 1.3.3 with the default ("legacy") options used by [bincode::serialize] /
    [bincode::deserialize]: fixed-size little-endian integers, [u64] sequence lengths, [u32]
    enum tags, one byte [bool]/[Option] tags, trailing bytes ignored. *)
From Verif Require Import Base DataModel.

(** A decoder consumes a prefix of the input; [None] is bincode's [Err]. *)
Definition dec (A : Type) := bytes -> option (A * bytes).
Definition d_ret {A} (a : A) : dec A := fun b => Some (a, b).
Definition d_fail {A} : dec A := fun _ => None.
Definition d_bind {A B} (x : dec A) (f : A -> dec B) : dec B :=
  fun b => match x b with Some (a, r) => f a r | None => None end.
Notation "x <~ e ;; f" := (d_bind e (fun x => f)) (at level 100, e at level 50, right associativity).

(** [n] raw bytes. *)
Definition d_take (n : nat) : dec bytes :=
  fun b => if (n <=? length b)%nat then Some (take n b, drop n b) else None.
Definition d_uint (n : nat) : dec N := x <~ d_take n;; d_ret (unle x).
Definition e_u64 (n : N) : bytes := le 8 n.
Definition d_u64 : dec N := d_uint 8.
Definition e_u32 (n : N) : bytes := le 4 n.
Definition d_u32 : dec N := d_uint 4.
Definition e_u8 (n : N) : bytes := le 1 n.
Definition d_u8 : dec N := d_uint 1.
(** [bool]: 0 or 1, anything else is [InvalidBoolEncoding]. *)
Definition e_bool (b : bool) : bytes := e_u8 (if b then 1 else 0).
Definition d_bool : dec bool :=
  x <~ d_u8;; if x =? 0 then d_ret false else if x =? 1 then d_ret true else d_fail.
(** [Option]: tag byte. *)
Definition e_option {A} (e : A -> bytes) (o : option A) : bytes :=
  match o with None => e_u8 0 | Some a => e_u8 1 ++ e a end.
Definition d_option {A} (d : dec A) : dec (option A) :=
  x <~ d_u8;; if x =? 0 then d_ret None
              else if x =? 1 then (a <~ d;; d_ret (Some a)) else d_fail.
(** Sequences. *)
Definition e_list {A} (e : A -> bytes) (l : list A) : bytes := e_u64 (lenN l) ++ concat (map e l).
Fixpoint d_rep {A} (d : dec A) (n : nat) : dec (list A) :=
  match n with O => d_ret [] | S n' => a <~ d;; l <~ d_rep d n';; d_ret (a :: l) end.
(** Every element takes at least one byte, so a length above the number of remaining bytes
    ends in [UnexpectedEof]; the guard keeps the model's counter small. *)
Definition d_list {A} (d : dec A) : dec (list A) :=
  n <~ d_u64;; fun b => if lenN b <? n then None else d_rep d (N.to_nat n) b.
Definition e_bytes (b : bytes) : bytes := e_u64 (lenN b) ++ b.
(** [Vec<u8>]. *)
Definition d_bytes : dec bytes :=
  n <~ d_u64;; fun b => if lenN b <? n then None else d_take (N.to_nat n) b.
(** [Pubkey]: 32 raw bytes. *)
Definition e_pubkey (p : pubkey) : bytes := le 32 p.
Definition d_pubkey_ : dec pubkey := d_uint 32.

(** serde-derived [Data], account_data.rs 19-24. *)
Definition e_adata (d : adata) : bytes :=
  match d with
  | DRaw b => e_u32 0 ++ e_bytes b
  | DLz4 b n => e_u32 1 ++ e_bytes b ++ e_u64 n
  | DZstd b n => e_u32 2 ++ e_bytes b ++ e_u64 n
  end.
Definition d_adata : dec adata :=
  t <~ d_u32;;
  if t =? 0 then (b <~ d_bytes;; d_ret (DRaw b))
  else if t =? 1 then (b <~ d_bytes;; n <~ d_u64;; d_ret (DLz4 b n))
  else if t =? 2 then (b <~ d_bytes;; n <~ d_u64;; d_ret (DZstd b n))
  else d_fail.
(** serde-derived [Account], account_data.rs 83-95. *)
Definition e_account (a : account) : bytes :=
  e_u64 (a_lamports a) ++ e_adata (a_data a) ++ e_pubkey (a_owner a) ++ e_bool (a_executable a)
  ++ e_u64 (a_rent_epoch a).
Definition d_account_ : dec account :=
  l <~ d_u64;; d <~ d_adata;; o <~ d_pubkey_;; e <~ d_bool;; r <~ d_u64;; d_ret (Account l d o e r).
(** serde-derived [AccountData], account_data.rs 122-128 ([Arc] is transparent). *)
Definition e_acct (a : acct) : bytes :=
  e_pubkey (d_pubkey a) ++ e_account (d_account a) ++ e_u64 (d_slot a) ++ e_u64 (d_wv a).
Definition d_acct : dec acct :=
  p <~ d_pubkey_;; a <~ d_account_;; s <~ d_u64;; w <~ d_u64;; d_ret (Acct p a s w).

(** [bincode::serialize(&Vec<AccountData>)] and [bincode::deserialize::<Vec<AccountData>>]. *)
Definition bincode_accounts (l : list acct) : bytes := e_list e_acct l.
Definition unbincode_accounts (b : bytes) : option (list acct) := fst <$> d_list d_acct b.
