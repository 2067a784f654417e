(** Specification of the server: what the archive and an orderly stream of messages say about the ledger, and what answers say. *)
From Verif Require Import Base DataModel BincodeModel FilterModel TokenModel SplModel TokenUtilsModel TokenPendModel TokenStoreModel TokenLedgerSpec AvecSpec StreamModel.

(** The accounts of the archive that concern the server: those of the token program, in the order of the archive, with slot and write version 0. *)
Definition snapshot_accounts (ls : list (list vacct)) : list acct := as_acct <$> filter (fun a => v_owner a = spl_token_id) (concat ls).
(** The account version of a message whose data is not compressed. *)
Definition reported (g : gacct) : acct := Acct (g_pubkey g) (Account (g_lamports g) (DRaw (g_data g)) (g_owner g) (g_exec g) (g_rent g)) (g_slot g) (g_wv g).
(** Messages without any effect. *)
Definition ignored (m : gmsg) : Prop := match m with GOther => True | GSlotMsg _ _ lv => lv <> LConfirmed /\ lv <> LFinalized | GAccountMsg _ => False end.

(** An orderly feed and its ledger: every account is in the snapshot at most once; the accounts of a slot arrive before the slot is confirmed;
    every slot is confirmed as the child of the slot confirmed before it, after some token account, mint or multisig of it has arrived; confirmed
    slots are finalized in order, possibly several at a time. *)
Inductive feed (E : ext) (base : list acct) : list gmsg -> tledger -> Prop :=
| fd_snapshot : NoDup (d_pubkey <$> base) -> feed E base [] (TLedger base [] ∅ [] None)
| fd_account ms L g : feed E base ms L -> 0 < g_slot g -> ~ is_confirmed L (g_slot g) -> ~ is_root L (g_slot g) ->
    feed E base (ms ++ [GAccountMsg g]) (TLedger (tl_base L) (tl_writes L ++ [reported g]) (tl_announced L) (tl_conf L) (tl_fin L))
| fd_confirm ms L s p : feed E base ms L -> p < s -> seen E L s -> match tl_conf L with [] => ~ touched L p | (t, _) :: _ => p = t end ->
    feed E base (ms ++ [GSlotMsg s p LConfirmed]) (TLedger (tl_base L) (tl_writes L) (tl_announced L) ((s, p) :: tl_conf L) (tl_fin L))
| fd_confirm_again ms L s p : feed E base ms L -> p < s -> is_confirmed L s -> unfinal L s -> feed E base (ms ++ [GSlotMsg s p LConfirmed]) L
| fd_finalize ms L s p : feed E base ms L -> (s, p) ∈ tl_conf L -> unfinal L s ->
    feed E base (ms ++ [GSlotMsg s p LFinalized]) (TLedger (tl_base L) (tl_writes L) (tl_announced L) (tl_conf L) (Some s))
| fd_ignored ms L m : feed E base ms L -> ignored m -> feed E base (ms ++ [m]) L.

(** The deliveries of the snapshot and the feed (used to say which keys belong to mints and token accounts). *)
Definition call_of (ord : drain) (m : gmsg) : option tsop :=
  match m with
  | GAccountMsg g => Some (TUpdate (reported g) Processed)
  | GSlotMsg s p LConfirmed => Some (TSlot ord (SlotInfo s p 0) Confirmed)
  | GSlotMsg s p LFinalized => Some (TSlot ord (SlotInfo s p 0) Finalized)
  | _ => None
  end.
Definition deliveries_of (ord : drain) (base : list acct) (ms : list gmsg) : list tsop := (TInit <$> base) ++ omap (call_of ord) ms.

(** The bytes a filter of a request stands for. *)
Definition says (E : ext) (d : memcmp_data) (b : bytes) : Prop :=
  match d with MBytes b' => b' = b | MBase58 s => x_b58 E s = Some b | MBase64 s => x_b64 E s = Some b end.
Definition names_at (E : ext) (rs : list rpc_filter) (off : N) (x : option pubkey) : Prop :=
  match x with
  | Some q => q < 2 ^ 256 /\ (exists d, RMemcmp off d ∈ rs /\ says E d (le 32 q)) /\ forall d b, RMemcmp off d ∈ rs -> says E d b -> lenN b = 32 -> b = le 32 q
  | None => forall d b, RMemcmp off d ∈ rs -> says E d b -> lenN b <> 32
  end.
(** The request is for the token accounts (165 bytes) of the owner [o] and the mint [mo], as far as given. *)
Record requests (E : ext) (rs : list rpc_filter) (o mo : option pubkey) : Prop := Requests {
  rq_readable : forall off d, RMemcmp off d ∈ rs -> exists b, says E d b;
  rq_state : RTokenAccountState ∉ rs;
  rq_size : RDataSize 165 ∈ rs /\ forall n, RDataSize n ∈ rs -> n = 165;
  rq_owner : names_at E rs 32 o;
  rq_mint : names_at E rs 0 mo }.
