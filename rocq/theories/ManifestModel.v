(** The manifest of a validator snapshot: simulate_from_snapshot/src/snapshot_utils/solana.rs, as read by archived.rs 69-79 and
    unpacked.rs 61-69.  Not modelled: the fields of the bank (the first half of the manifest; its decoder is an argument that
    returns what is left), the size limit of 32 GiB (40, 48). *)
From Verif Require Import Base DataModel BincodeModel AvecModel.

(** [SerializableAccountStorageEntry], solana.rs 122-126 ([usize] is written as [u64]). *)
Definition d_entry : dec (N * N) := i <~ d_u64;; n <~ d_u64;; d_ret (i, n).
(** One element of [HashMap<Slot, Vec<T>>], 109. *)
Definition d_slot_files : dec (N * list (N * N)) := s <~ d_u64;; l <~ d_list d_entry;; d_ret (s, l).
(** serde's [HashMap]: elements are inserted one after the other. *)
Definition to_index (l : list (N * list (N * N))) : index_t := foldl (fun m e => <[e.1 := e.2]> m) ∅ l.
(** [default_on_eof] (solana-sdk 1.18 deserialize_utils.rs): a value that cannot be read because the input ends is the default;
    the attempt consumes the input.  The two sequences it is used for can fail in no other way. *)
Definition d_default {A} (a : A) (d : dec A) : dec A :=
  fun b => match d b with Some r => Some r | None => Some (a, []) end.
(** [BankHashInfo], 99-104: two hashes and the five numbers of [BankHashStats]. *)
Definition hash_info_len : nat := 32 + 32 + 5 * 8.
(** [AccountsDbFields], 106-118. *)
Record db_fields := DbFields { df_files : index_t; df_wv : N; df_slot : N; df_hash : bytes; df_roots : list N; df_root_hashes : list (N * bytes) }.
Definition d_fields : dec db_fields :=
  m <~ d_list d_slot_files;; w <~ d_u64;; s <~ d_u64;; h <~ d_take hash_info_len;;
  r <~ d_default [] (d_list d_u64);;
  rh <~ d_default [] (d_list (s <~ d_u64;; h <~ d_take 32;; d_ret (s, h)));;
  d_ret (DbFields (to_index m) w s h r rh).
(** The two calls of [deserialize_from] (42-53) in archived.rs 70-74 and unpacked.rs 62-67, on one reader; [bank] decodes the first
    part.  Trailing bytes are allowed (51). *)
Definition dec_manifest (bank : bytes -> option bytes) (b : bytes) : option index_t :=
  match bank b with
  | None => None
  | Some r => match d_fields r with Some (f, _) => Some (df_files f) | None => None end
  end.
