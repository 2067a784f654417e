(** Model of [token_account_storage/src/token_program_utils.rs]. *)
From Verif Require Import Base DataModel BincodeModel FilterModel TokenModel SplModel.

(** [MintAccount], account_types.rs 81-92. *)
Record mint_account := MintAccount {
  ma_program : program; ma_pubkey : pubkey; ma_lamports : N; ma_supply : N; ma_decimals : N; ma_init : bool;
  ma_authority : option pubkey; ma_freeze : option pubkey; ma_extra : option bytes }.
#[global] Instance mint_account_eq_dec : EqDecision mint_account.
Proof. solve_decision. Defined.
(** [MultiSig], account_types.rs 94-103. *)
Record multisig := MultiSig {
  mu_program : program; mu_pubkey : pubkey; mu_lamports : N; mu_m : N; mu_n : N; mu_init : bool; mu_signers : list pubkey }.
#[global] Instance multisig_eq_dec : EqDecision multisig.
Proof. solve_decision. Defined.
(** [TokenProgramAccountType], 21-27. *)
Inductive tpa := TPToken (t : token_account) | TPMint (m : mint_account) | TPMulti (m : multisig) (pk : pubkey) | TPDeleted (pk : pubkey).
(** [TokenProgramAccountType::pubkey], 29-38. *)
Definition tpa_pubkey (a : tpa) : pubkey :=
  match a with TPToken t => ta_pubkey t | TPMint m => ma_pubkey m | TPMulti _ pk => pk | TPDeleted pk => pk end.

(** [get_or_create_mint_index], 40-53.  The [AtomicU32] counter does not wrap in the model
    (2^32 distinct mints). *)
Definition mint_index (mint : pubkey) (ix : gmap pubkey N) (ctr : N) : N * gmap pubkey N * N :=
  match ix !! mint with
  | Some i => (i, ix, ctr)
  | None => (ctr, <[mint := ctr]> ix, ctr + 1)
  end.

(** The struct literals of [MintAccount] in 100-110 and 176-186. *)
Definition of_spl_mint (p : program) (a : acct) (m : spl_mint) (x : option bytes) : mint_account :=
  MintAccount p (d_pubkey a) (d_lamports a) (sm_supply m) (sm_decimals m) (sm_init m) (sm_authority m) (sm_freeze m) x.
(** The struct literals of [TokenAccount] in 121-148 and 196-220; [delegate.map(|x| (x, delegated_amount))]. *)
Definition of_spl_account (p : program) (a : acct) (s : spl_account) (mint : N) (x : option bytes) : token_account :=
  TokenAccount p (d_lamports a =? 0) (d_pubkey a) (sa_owner s) mint (sa_amount s) (sa_state s)
    ((fun d => (d, sa_delegated s)) <$> sa_delegate s) (sa_native s) (sa_close s) x.
(** [signers.iter().filter(|x| **x != Pubkey::default())], 160-165 and 232-237. *)
Definition live_signers (l : list pubkey) : list pubkey := filter (fun x => x <> 0) l.
(** The struct literals of [MultiSig] in 153-167 and 225-239: default signers are filtered out. *)
Definition of_spl_multisig (p : program) (a : acct) (m : spl_multisig) : multisig :=
  MultiSig p (d_pubkey a) (d_lamports a) (ms_m m) (ms_n m) (ms_init m) (live_signers (ms_signers m)).

(** [get_token_program_account_type], 55-245.  [None] is [Err]; the result carries the mint index map
    and counter, which only change when a token account names a new mint. *)
Definition account_type (E : ext) (a : acct) (ix : gmap pubkey N) (ctr : N)
  : res (option (tpa * gmap pubkey N * N)) :=
  let len := data_len (d_data a) in
  let mint p v x :=
    match unpack_mint v with
    | Some m => Some (TPMint (of_spl_mint p a m x), ix, ctr)
    | None => None
    end in
  let token p v x :=
    match unpack_account v with
    | Some s => let '(i, ix', ctr') := mint_index (sa_mint s) ix ctr in Some (TPToken (of_spl_account p a s i x), ix', ctr')
    | None => None
    end in
  let multi p v :=
    match unpack_multisig v with
    | Some m => Some (TPMulti (of_spl_multisig p a m) (d_pubkey a), ix, ctr)
    | None => None
    end in
  if (d_lamports a =? 0) || (negb (d_owner a =? spl_token_id) && negb (d_owner a =? spl_2022_id))
  then Done (Some (TPDeleted (d_pubkey a), ix, ctr))
  else if d_owner a =? spl_2022_id then
    v ← data_bytes E (d_data a);
    if len =? 82 then Done (mint Token2022P v None)
    else if len =? 165 then Done (token Token2022P v None)
    else if len =? 355 then Done (multi Token2022P v)
    else if 165 <? len then
      k ← unwrap (v !! 165%nat);
      if b2n k =? 1 then Done (mint Token2022P v (Some (drop 165 v)))
      else if b2n k =? 2 then Done (token Token2022P v (Some (drop 165 v)))
      else Done None
    else Done None
  else
    v ← data_bytes E (d_data a);
    if len =? 82 then Done (mint TokenP v None)
    else if len =? 165 then Done (token TokenP v None)
    else Done (multi TokenP v).

Definition program_pk (p : program) : pubkey := match p with TokenP => spl_token_id | Token2022P => spl_2022_id end.
(** [token_account_to_solana_account], 247-340; panics when the mint is unknown. *)
Definition token_to_acct (t : token_account) (slot wv : N) (mints : gmap N mint_account) : res (option acct) :=
  if ta_deleted t then Done None
  else
    m ← unwrap (mints !! ta_mint t);
    let base := pack_account (SplAccount (ma_pubkey m) (ta_owner t) (ta_amount t) (fst <$> ta_delegate t) (ta_state t)
                  (ta_native t) (match ta_delegate t with Some (_, n) => n | None => 0 end) (ta_close t)) in
    let data := match ta_program t with TokenP => base | Token2022P => base ++ default [] (ta_extra t) end in
    Done (Some (Acct (ta_pubkey t)
      (Account (rent_minimum (lenN data)) (DRaw data) (program_pk (ta_program t)) false (2 ^ 64 - 1)) slot wv)).
(** [token_mint_to_solana_account], 342-399. *)
Definition mint_to_acct (m : mint_account) (slot wv : N) : acct :=
  let base := pack_mint (SplMint (ma_authority m) (ma_supply m) (ma_decimals m) (ma_init m) (ma_freeze m)) in
  let data := match ma_program m with
              | TokenP => base
              | Token2022P => match ma_extra m with Some x => base ++ le 83 0 ++ x | None => base end
              end in
  Acct (ma_pubkey m) (Account (ma_lamports m) (DRaw data) (program_pk (ma_program m)) false (2 ^ 64 - 1)) slot wv.
(** [token_multisig_to_solana_account], 401-451; the slice panics on more than 11 signers. *)
Definition multisig_to_acct (m : multisig) (pk : pubkey) (slot wv : N) : res acct :=
  if (length (mu_signers m) <=? max_signers)%nat then
    let signers := mu_signers m ++ replicate (max_signers - length (mu_signers m)) 0 in
    let data := pack_multisig (SplMultisig (mu_m m) (mu_n m) (mu_init m) signers) in
    Done (Acct pk (Account (mu_lamports m) (DRaw data) (program_pk (mu_program m)) false (2 ^ 64 - 1)) slot wv)
  else Panic.
(** [token_program_account_to_solana_account], 453-473. *)
Definition tpa_to_acct (a : tpa) (slot wv : N) (mints : gmap N mint_account) : res (option acct) :=
  match a with
  | TPToken t => token_to_acct t slot wv mints
  | TPMint m => Done (Some (mint_to_acct m slot wv))
  | TPMulti m pk => a ← multisig_to_acct m pk slot wv; Done (Some a)
  | TPDeleted _ => Done None
  end.

(** [get_spl_token_owner_mint_filter], 475-536: only raw-bytes patterns are looked at, later conditions
    override earlier ones. *)
Record om_scan := OmScan { om_size : option N; om_type : option bytes; om_owner : option pubkey; om_mint : option pubkey }.
Definition om_step (p : pubkey) (s : om_scan) (c : cond) : om_scan :=
  match c with
  | Datasize n => OmScan (Some n) (om_type s) (om_owner s) (om_mint s)
  | MemcmpC (Memcmp off (MBytes b)) =>
      OmScan (om_size s)
        (if (off =? 165) && (p =? spl_2022_id) then Some b else om_type s)
        (if (off =? 32) && (lenN b =? 32) then Some (unle b) else om_owner s)
        (if (off =? 0) && (lenN b =? 32) then Some (unle b) else om_mint s)
  | _ => s
  end.
Definition owner_mint_filter (p : pubkey) (cs : list cond) : option pubkey * option pubkey :=
  let s := foldl (om_step p) (OmScan None None None None) cs in
  if bool_decide (om_size s = Some 165) || bool_decide (om_type s = Some [n2b 2]) then (om_owner s, om_mint s) else (None, None).
