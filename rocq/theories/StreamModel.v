(** Model of the stream consumer of [simulate_from_snapshot/src/main.rs] 42-116. *)
From Verif Require Import Base DataModel TokenUtilsModel TokenPendModel TokenStoreModel.

(** [quic_geyser_common::compression::CompressionType], the cases matched in main.rs 63-73. *)
Inductive gcomp := GNone | GLz4Fast (v : Z) | GLz4 (v : Z).
(** [quic_geyser_common::types::account::Account], the fields read in main.rs 62-87. *)
Record gacct := GAcct {
  g_pubkey : pubkey; g_slot : N; g_wv : N; g_lamports : N; g_owner : pubkey; g_exec : bool; g_rent : N; g_comp : gcomp; g_data : bytes }.
(** [quic_geyser_common::message::Message], main.rs 60-113. *)
Inductive gmsg :=
| GAccountMsg (a : gacct)
| GSlotMsg (slot parent : N) (level : commitment_level)
| GOther.
(** main.rs 62-73. *)
Definition method_of (c : gcomp) : compression := match c with GNone => CNone | GLz4Fast v => CLz4 v | GLz4 v => CLz4 v end.
(** main.rs 74-86. *)
Definition msg_acct (E : ext) (g : gacct) : res acct :=
  d ← data_new E (g_data g) (method_of (g_comp g));
  Done (Acct (g_pubkey g) (Account (g_lamports g) d (g_owner g) (g_exec g) (g_rent g)) (g_slot g) (g_wv g)).
(** The body of the loop, main.rs 60-113: one call of the store or none.  [CommitmentConfig] is compared for equality, so only the
    levels [confirmed] and [finalized] themselves are forwarded.  [ord] is the enumeration used by a [drain] (see TokenStoreModel). *)
Definition msg_op (E : ext) (ord : drain) (m : gmsg) : res (option tsop) :=
  match m with
  | GAccountMsg g => a ← msg_acct E g; Done (Some (TUpdate a Processed))
  | GSlotMsg slot parent LConfirmed => Done (Some (TSlot ord (SlotInfo slot parent 0) Confirmed))
  | GSlotMsg slot parent LFinalized => Done (Some (TSlot ord (SlotInfo slot parent 0) Finalized))
  | GSlotMsg _ _ _ => Done None
  | GOther => Done None
  end.
(** The loop, main.rs 59-114: messages in the order received. *)
Fixpoint stream_run (E : ext) (X : lz4x) (ord : drain) (ts : tstore) (ms : list gmsg) : res tstore :=
  match ms with
  | [] => Done ts
  | m :: ms' =>
      o ← msg_op E ord m;
      ts' ← match o with Some o => ts_step E X ts o | None => Done ts end;
      stream_run E X ord ts' ms'
  end.
