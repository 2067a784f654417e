(** Specification vocabulary for concurrent calls of the token store. *)
From Verif Require Import Base DataModel FilterModel StoreModel TokenModel SplModel TokenUtilsModel TokenPendModel TokenStoreModel TokenStoreSpec TokenConcModel.

(** The operation a call makes; reads make none. *)
Definition upd_op (a : acct) (c : option commitment) : tsop := match c with Some c => TUpdate a c | None => TInit a end.
Definition call_op (t : tthr) : option tsop :=
  match t with
  | XUpd a c => Some (upd_op a c)
  | XSlot ord si c => Some (TSlot ord si c)
  | XLoad b => Some (TLoad 0 b)
  | _ => None
  end.
(** The operations of an execution, [L], taken together: no snapshot is loaded, data can be read and has the length it claims, parents
    come before their slots, mints are never closed and fewer than 2^32 mints occur. *)
Definition calm_world (E : ext) (L : list tsop) : Prop :=
  ops_ok L /\ mints_stay E L /\
  (forall o a, o ∈ L -> op_acct o = Some a -> exists v, data_bytes E (d_data a) = Done v /\ lenN v = data_len (d_data a)) /\
  (forall ord si c, TSlot ord si c ∈ L -> si_parent si < si_slot si) /\
  exists M : list pubkey, lenN M <= 2 ^ 32 /\ forall o q, o ∈ L -> op_names E o q \/ op_mint E o q -> q ∈ M.
(** A call is made: its operation is one of [L] and the mint of a token account is known to the store by then; a query asks with
    conditions that do not panic by themselves and, for the accounts of an owner and a mint, with a known mint. *)
Definition knows (ts : tstore) (q : pubkey) : Prop := is_Some (ts_mint_ix ts !! q).
Definition calm_query (E : ext) (ts : tstore) (p : pubkey) (fl : option (list cond)) : Prop :=
  forall cs, fl = Some cs -> (forall d v, d ∈ cs -> allows E d v <> Panic) /\ forall o m, owner_mint_filter p cs = (Some o, Some m) -> knows ts m.
Definition calm_call (E : ext) (L : list tsop) (cs : tconc) (t : tthr) : Prop :=
  (forall o, call_op t = Some o -> o ∈ L /\ forall q, op_names E o q -> knows (tc_ts cs) q) /\
  (forall p fl c, t = XGpa p fl c -> calm_query E (tc_ts cs) p fl).
(** A call that may still change the store. *)
Definition writing (t : tthr) : bool :=
  match t with
  | XDone _ | XGet _ _ | XPend _ _ _ | XPendConf _ _ _ | XShow _ _ | XGetFin _ | XGetMint _ | XGetRow _ | XRowSlot _ | XRow _ _
  | XGpa _ _ _ | XGpaOwner _ _ _ _ | XGpaOwnerMint _ _ _ _ _ | XGpaRows _ _ _ _ _ | XGpaMint _ _ _ | XGpaAll _ _ _ | XRows _ _ _ _
  | XOver _ _ | XOverPend _ _ _ | XOverConf _ _ _ | XOverlay _ _ _ => false
  | _ => true
  end.
Definition quiet (cs : tconc) : Prop := Forall (fun t => writing t = false) (tc_thr cs).

(** A call that runs alone from its current point: the store and the answer it leaves, or a panic. *)
Inductive runs (E : ext) (X : lz4x) : tstore -> tthr -> res (tstore * tout) -> Prop :=
| runs_ret ts o : runs E X ts (XDone o) (Done (ts, o))
| runs_step ts t ts' t' r : tpiece E X ts t = Some (Done (ts', t')) -> runs E X ts' t' r -> runs E X ts t r
| runs_panic ts t : tpiece E X ts t = Some Panic -> runs E X ts t Panic.
(** The call of an operation. *)
Definition op_call (o : tsop) : tthr :=
  match o with
  | TUpdate a c => XUpd a (Some c)
  | TInit a => XUpd a None
  | TSlot ord si c => XSlot ord si c
  | TLoad _ b => XLoad b
  end.

(** The bytes [w] of an answer mean what the delivered bytes [v] mean: the same mint, the same token account (up to the delegated amount
    of an account without a delegate), or the same multisig (up to the order and padding of its signers). *)
Definition reads_as (v w : bytes) : Prop :=
  (exists r, unpack_mint v = Some r /\ unpack_mint w = Some r) \/
  (exists r s, unpack_account v = Some r /\ unpack_account w = Some s /\ sa_mint s = sa_mint r /\ sa_owner s = sa_owner r /\ sa_amount s = sa_amount r /\
     sa_delegate s = sa_delegate r /\ sa_state s = sa_state r /\ sa_native s = sa_native r /\ sa_close s = sa_close r /\ (is_Some (sa_delegate r) -> sa_delegated s = sa_delegated r)) \/
  (exists r s, unpack_multisig v = Some r /\ unpack_multisig w = Some s /\ ms_m s = ms_m r /\ ms_n s = ms_n r /\ ms_init s = ms_init r /\
     forall q, q <> 0 -> q ∈ ms_signers s <-> q ∈ ms_signers r).
(** [b] is content that an operation of [L] delivered for the key [pk], with the account alive. *)
Definition genuine (E : ext) (L : list tsop) (pk : pubkey) (b : acct) : Prop :=
  d_pubkey b = pk /\ exists o a v w, o ∈ L /\ op_acct o = Some a /\ d_pubkey a = pk /\ d_lamports a <> 0 /\ d_owner a = d_owner b /\
    data_bytes E (d_data a) = Done v /\ d_data b = DRaw w /\ reads_as v w.
(** No call made by [L] closes [pk]. *)
Definition never_closed (L : list tsop) (pk : pubkey) : Prop := forall o, o ∈ L -> ~ op_closes o pk.
(** Call [j] has been made as [t] and has not begun to run; call [j] has returned [r]. *)
Definition made (cs : tconc) (j : nat) (t : tthr) : Prop := is_call t = true /\ tc_thr cs !! j = Some t.
Definition returned (cs : tconc) (j : nat) (r : tout) : Prop := tc_thr cs !! j = Some (XDone r).
(** [process_slot_data] before it has taken its accounts out of the pending slots. *)
Definition slotting (t : tthr) : bool :=
  match t with
  | XSlot _ _ _ | XConfStore _ | XConfInfo _ | XFor _ | XForNew _ | XFinInfo _ _ | XFinStore _ _ | XFinalize _ _ => true
  | _ => false
  end.
(** Calls are arbitrary, except that [process_slot_data] is not called while another call of it is at such a point. *)
Definition slots_apart (cs : tconc) (t : tthr) : Prop := forall ord si c, t = XSlot ord si c -> Forall (fun x => slotting x = false) (tc_thr cs).
(** Finalized reads and queries, and the slots their answers carry. *)
Definition final_read (t : tthr) : bool := match t with XGet _ Finalized | XGpa _ _ Finalized => true | _ => false end.
Definition slots_of (r : tout) : list N := match r with OGet (Some b) => [d_slot b] | OGpa (ROk l) => d_slot <$> l | _ => [] end.
