(** Specification vocabulary for the stream consumer. *)
From Verif Require Import Base DataModel BincodeModel TokenModel SplModel SplProofs TokenUtilsModel StreamModel.

(** The account the validator reported: the contract of the plugin is that [data] is the account's data, compressed as the message says
    (either mode of LZ4 is read by the same decompressor). *)
Definition reports (E : ext) (g : gacct) (A : sol_account) : Prop :=
  g_lamports g = s_lamports A /\ g_owner g = s_owner A /\ g_exec g = s_executable A /\ g_rent g = s_rent_epoch A /\
  match g_comp g with
  | GNone => g_data g = s_data A
  | GLz4Fast _ | GLz4 _ => x_lz4d E (g_data g) = Some (s_data A)
  end.
(** Messages that carry their data as it is. *)
Definition plain (m : gmsg) : Prop := match m with GAccountMsg g => g_comp g = GNone | _ => True end.
(** Keys are 32 bytes; parents come before their slots. *)
Definition msg_ok (m : gmsg) : Prop :=
  match m with GAccountMsg g => g_pubkey g < 2 ^ 256 | GSlotMsg slot parent _ => parent < slot | GOther => True end.

(** The accounts of a stream. *)
Definition accounts_of (ms : list gmsg) : list gacct := omap (fun m => match m with GAccountMsg g => Some g | _ => None end) ms.
Definition confirmed (ms : list gmsg) (s : N) : Prop := exists p, GSlotMsg s p LConfirmed ∈ ms.
Definition finalized (ms : list gmsg) (s : N) : Prop := exists p, GSlotMsg s p LFinalized ∈ ms.
(** The account is a live account of the token program [p] with content [r]; none of its bytes is lost by the store (C41). *)
Definition token_of (g : gacct) (p : program) (r : spl_account) : Prop :=
  g_lamports g <> 0 /\ g_owner g = program_pk p /\ sa_ok r /\ g_data g = pack_account r /\ (sa_delegate r = None -> sa_delegated r = 0).
(** [k] is the key of token accounts only, is named as a mint by none, and shares its first four bytes with no other key. *)
Definition private_key (gs : list gacct) (k : pubkey) : Prop :=
  forall g, g ∈ gs ->
    (g_pubkey g = k -> unpack_mint (g_data g) = None /\ unpack_multisig (g_data g) = None) /\
    (forall r, unpack_account (g_data g) = Some r -> sa_mint r <> k) /\
    (g_pubkey g <> k -> take 4 (le 32 (g_pubkey g)) <> take 4 (le 32 k)).
Definition never_closed (gs : list gacct) (q : pubkey) : Prop :=
  forall g, g ∈ gs -> g_pubkey g = q -> g_lamports g <> 0 /\ (g_owner g = spl_token_id \/ g_owner g = spl_2022_id).
(** Loading the accounts of a snapshot: one call each, data as it is, slot and write version 0 (main.rs 130-152). *)
Definition snap_acct (g : gacct) : acct := Acct (g_pubkey g) (Account (g_lamports g) (DRaw (g_data g)) (g_owner g) (g_exec g) (g_rent g)) 0 0.
