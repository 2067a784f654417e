(** Model of [common/src/account_filter.rs], [simple_filter_store.rs],
    [except_filter_store.rs], [mutable_filter_store.rs]. *)
From Verif Require Import Base DataModel.

(** [MemcmpFilterData], account_filter.rs 10-14 (strings as their UTF-8 bytes). *)
Inductive memcmp_data := MBytes (b : bytes) | MBase58 (s : bytes) | MBase64 (s : bytes).
#[global] Instance memcmp_data_eq_dec : EqDecision memcmp_data.
Proof. solve_decision. Defined.

(** [MemcmpFilter], account_filter.rs 18-21. *)
Record memcmp := Memcmp { m_offset : N; m_data : memcmp_data }.
#[global] Instance memcmp_eq_dec : EqDecision memcmp.
Proof. solve_decision. Defined.

(** [AccountFilterType], account_filter.rs 63-66. *)
Inductive cond := Datasize (n : N) | MemcmpC (m : memcmp).
#[global] Instance cond_eq_dec : EqDecision cond.
Proof. solve_decision. Defined.

(** [AccountFilter], account_filter.rs 78-82. *)
Record afilter := AFilter {
  f_accounts : list pubkey; f_program : option pubkey; f_filters : option (list cond) }.
#[global] Instance afilter_eq_dec : EqDecision afilter.
Proof. solve_decision. Defined.

Section filters.
Context (E : ext).

(** [MemcmpFilter::bytes], account_filter.rs 24-34: panics on undecodable text. *)
Definition memcmp_bytes (m : memcmp) : res bytes :=
  match m_data m with
  | MBytes b => Done b
  | MBase58 s => unwrap (x_b58 E s)
  | MBase64 s => unwrap (x_b64 E s)
  end.

(** The comparison of account_filter.rs 39-46 and 49-56 (identical code twice).
    [offset as usize] is the identity on 64-bit targets; the slices
    [data[offset..]] and [data[offset..offset+len]] are in range after the checks. *)
Definition slice_match (offset : N) (pat data : bytes) : bool :=
  if lenN data <? offset then false
  else if lenN (drop (N.to_nat offset) data) <? lenN pat then false
  else bool_decide (take (length pat) (drop (N.to_nat offset) data) = pat).

(** [MemcmpFilter::bytes_match], account_filter.rs 36-58. *)
Definition bytes_match (m : memcmp) (data : bytes) : res bool :=
  match m_data m with
  | MBytes b => Done (slice_match (m_offset m) b data)
  | _ => b ← memcmp_bytes m; Done (slice_match (m_offset m) b data)
  end.

(** [AccountFilterType::allows], account_filter.rs 69-74. *)
Definition allows (c : cond) (data : bytes) : res bool :=
  match c with
  | Datasize n => Done (lenN data =? n)
  | MemcmpC m => bytes_match m data
  end.

(** Order derived for [AccountFilterType] (account_filter.rs 8, 16, 61): variants in
    declaration order, then fields lexicographically; written as a sort key on which
    [lexcmp] is that order. *)
Definition cond_key (c : cond) : list N :=
  match c with
  | Datasize n => [0; n]
  | MemcmpC m =>
      match m_data m with
      | MBytes b => 1 :: m_offset m :: 0 :: map b2n b
      | MBase58 s => 1 :: m_offset m :: 1 :: map b2n s
      | MBase64 s => 1 :: m_offset m :: 2 :: map b2n s
      end
  end.

(** [BTreeSet<AccountFilterType>] as the list of its elements in increasing order. *)
Fixpoint bset_insert (c : cond) (s : list cond) : list cond :=
  match s with
  | [] => [c]
  | c' :: s' => match lexcmp (cond_key c) (cond_key c') with
                | Lt => c :: s
                | Eq => s
                | Gt => c' :: bset_insert c s'
                end
  end.
(** [.collect::<BTreeSet<_>>()]. *)
Definition bset_of (l : list cond) : list cond := fold_left (fun s c => bset_insert c s) l [].

(** [ProgramIdFilters], simple_filter_store.rs 11-18. *)
Inductive pfilters := AllowAll | ByFilter (l : list (list cond)).

(** [SimpleFilterStore], simple_filter_store.rs 21-24. *)
Record fstore := FStore { fs_accounts : gset pubkey; fs_programs : gmap pubkey pfilters }.
Definition fstore_empty : fstore := FStore ∅ ∅.

(** "always save filters in bytes", simple_filter_store.rs 63-77 (only on the first
    insertion for a program). *)
Definition normalize (c : cond) : res cond :=
  match c with
  | Datasize _ => Done c
  | MemcmpC m => match m_data m with
                 | MBytes _ => Done c
                 | _ => b ← memcmp_bytes m; Done (MemcmpC (Memcmp (m_offset m) (MBytes b)))
                 end
  end.
Fixpoint map_r {A B} (f : A -> res B) (l : list A) : res (list B) :=
  match l with
  | [] => Done []
  | x :: l' => y ← f x; ys ← map_r f l'; Done (y :: ys)
  end.

(** [SimpleFilterStore::add_account_filter], simple_filter_store.rs 33-84. *)
Definition add_filter (st : fstore) (f : afilter) : res fstore :=
  let accounts := fs_accounts st ∪ list_to_set (f_accounts f) in
  match f_program f with
  | None => Done (FStore accounts (fs_programs st))
  | Some p =>
      match fs_programs st !! p with
      | Some AllowAll => Done (FStore accounts (fs_programs st))
      | Some (ByFilter cur) =>
          match f_filters f with
          | Some new => Done (FStore accounts (<[p := ByFilter (cur ++ [bset_of new])]> (fs_programs st)))
          | None => Done (FStore accounts (<[p := AllowAll]> (fs_programs st)))
          end
      | None =>
          match f_filters f with
          | None => Done (FStore accounts (<[p := AllowAll]> (fs_programs st)))
          | Some new => n ← map_r normalize new;
                        Done (FStore accounts (<[p := ByFilter [bset_of n]]> (fs_programs st)))
          end
      end
  end.

(** [add_account_filters], simple_filter_store.rs 27-31; the same code is reached through
    mutable_filter_store.rs 15-18 (under its write lock) and except_filter_store.rs 15-18. *)
Fixpoint add_filters (st : fstore) (fs : list afilter) : res fstore :=
  match fs with
  | [] => Done st
  | f :: fs' => st' ← add_filter st f; add_filters st' fs'
  end.

(** [contains_account], simple_filter_store.rs 86-88; mutable_filter_store.rs 20-23. *)
Definition contains_account (st : fstore) (pk : pubkey) : bool := bool_decide (pk ∈ fs_accounts st).

(** [contains_filter_internal], simple_filter_store.rs 90-131. *)
Definition contains_filter (st : fstore) (q : afilter) : bool :=
  let accounts_match := forallb (fun pk => bool_decide (pk ∈ fs_accounts st)) (f_accounts q) in
  let program_match :=
    match f_program q with
    | None => true
    | Some p =>
        match fs_programs st !! p with
        | None => false
        | Some AllowAll => true
        | Some (ByFilter fl) =>
            match f_filters q with
            | None => false
            | Some l =>
                let to_match := bset_of l in
                existsb (fun stored =>
                  if (length stored <=? length to_match)%nat
                  then bool_decide (bset_of (take (length stored) to_match) = stored)
                  else false) fl
            end
        end
    end in
  accounts_match && program_match.

(** [satisfies_filter], simple_filter_store.rs 133-154 (data is decompressed per
    condition; a failing decompression panics). *)
Definition satisfies (st : fstore) (a : acct) : res bool :=
  if bool_decide (d_pubkey a ∈ fs_accounts st) then Done true
  else match fs_programs st !! d_owner a with
       | None => Done false
       | Some AllowAll => Done true
       | Some (ByFilter fl) =>
           any_r (all_r (fun c => d ← data_bytes E (d_data a); allows c d)) fl
       end.

(** [ExceptFilterStore], except_filter_store.rs 21-29. *)
Definition except_satisfies (st : fstore) (a : acct) : res bool := b ← satisfies st a; Done (negb b).
Definition except_contains (st : fstore) (q : afilter) : bool := negb (contains_filter st q).

(** ** RPC representation *)

(** [solana_rpc_client_api::filter::MemcmpEncodedBytes] / [RpcFilterType] (1.18). *)
Inductive rpc_filter :=
| RDataSize (n : N)
| RMemcmp (offset : N) (d : memcmp_data)
| RTokenAccountState.
(** [RpcMemcmp::bytes] (1.18): base58/base64 decoding, [None] when it fails. *)
Definition rpc_memcmp_bytes (d : memcmp_data) : option bytes :=
  match d with MBytes b => Some b | MBase58 s => x_b58 E s | MBase64 s => x_b64 E s end.
(** [RpcMemcmp::bytes_match] (1.18): false when decoding fails. *)
Definition rpc_bytes_match (offset : N) (d : memcmp_data) (data : bytes) : bool :=
  match rpc_memcmp_bytes d with
  | Some b => slice_match offset b data
  | None => false
  end.
(** [AccountFilter::get_rpc_filter], account_filter.rs 146-169, per condition. *)
Definition to_rpc (c : cond) : rpc_filter :=
  match c with Datasize n => RDataSize n | MemcmpC m => RMemcmp (m_offset m) (m_data m) end.
Definition get_rpc_filter (f : afilter) : option (list rpc_filter) := map to_rpc <$> f_filters f.
(** [From<&RpcFilterType> for AccountFilterType], account_filter.rs 173-189:
    [unwrap_or_default] turns an undecodable pattern into the empty one;
    [TokenAccountState] is [unimplemented!()]. *)
Definition from_rpc (r : rpc_filter) : res cond :=
  match r with
  | RDataSize n => Done (Datasize n)
  | RMemcmp off d => Done (MemcmpC (Memcmp off (MBytes (default [] (rpc_memcmp_bytes d)))))
  | RTokenAccountState => Panic
  end.
(** [AccountData::allows], account_data.rs 131-140. *)
Definition acct_allows (a : acct) (r : rpc_filter) : res bool :=
  match r with
  | RDataSize n => Done (data_len (d_data a) =? n)
  | RMemcmp off pat => d ← data_bytes E (d_data a); Done (rpc_bytes_match off pat d)
  | RTokenAccountState => Done false
  end.
End filters.
