(** Specification: what an orderly stream says about the token accounts of the ledger, independent of how the store works. *)
From Verif Require Import Base DataModel BincodeModel FilterModel StoreModel TokenModel SplModel TokenUtilsModel TokenUtilsProofs TokenUtilsProps TokenPendModel TokenStoreModel TokenStoreSpec.

(** The accounts loaded at the start, the writes of the slots, the slots announced as processed, the confirmed slots with their parents (newest
    first) and the newest finalized slot. *)
Record tledger := TLedger {
  tl_base : list acct; tl_writes : list acct; tl_announced : gset N; tl_conf : list (N * N); tl_fin : option N }.
Definition no_tledger : tledger := TLedger [] [] ∅ [] None.

Definition older (a b : acct) : Prop := d_slot a < d_slot b \/ (d_slot a = d_slot b /\ d_wv a <= d_wv b).
Definition token_owned (a : acct) : Prop := d_owner a = spl_token_id \/ d_owner a = spl_2022_id.
Definition closed (a : acct) : Prop := d_lamports a = 0 \/ ~ token_owned a.
Definition is_confirmed (L : tledger) (s : N) : Prop := exists p, (s, p) ∈ tl_conf L.
Definition is_final (L : tledger) (s : N) : Prop := is_confirmed L s /\ exists f, tl_fin L = Some f /\ s <= f.
Definition unfinal (L : tledger) (s : N) : Prop := forall f, tl_fin L = Some f -> f < s.
(** Slots the stream has mentioned other than by confirming them; and those of them that certainly reached the store: the store takes every write
    of an account that belongs to a token program and is closed, a token account, a mint or a multisig. *)
Definition touched (L : tledger) (s : N) : Prop := s ∈ tl_announced L \/ exists a, a ∈ tl_writes L /\ d_slot a = s.
Definition token_write (E : ext) (a : acct) : Prop :=
  token_owned a /\ (d_lamports a = 0 \/ exists p v, live_with E a p v /\ (is_Some (unpack_account v) \/ is_Some (unpack_mint v) \/ is_Some (unpack_multisig v))).
Definition seen (E : ext) (L : tledger) (s : N) : Prop := s ∈ tl_announced L \/ exists a, a ∈ tl_writes L /\ d_slot a = s /\ token_write E a.
(** The parent of the first confirmed slot: it belongs to what was loaded at the start. *)
Definition is_root (L : tledger) (s : N) : Prop := exists t, last (tl_conf L) = Some (t, s).

(** One event of an orderly stream: accounts are loaded first; announcements are optional; the accounts of a slot arrive before the slot is
    confirmed; every slot is confirmed as the child of the slot confirmed before it, after something of it has reached the store; confirmed
    slots are finalized in order, possibly several at a time. *)
Inductive tevent (E : ext) (L : tledger) : tsop -> tledger -> Prop :=
| te_load a : tl_writes L = [] -> tl_conf L = [] -> (forall b, b ∈ tl_base L -> d_pubkey b = d_pubkey a -> older b a) ->
    tevent E L (TInit a) (TLedger (tl_base L ++ [a]) [] (tl_announced L) [] (tl_fin L))
| te_announce ord si : si_parent si < si_slot si -> ~ is_confirmed L (si_slot si) -> ~ is_root L (si_slot si) ->
    tevent E L (TSlot ord si Processed) (TLedger (tl_base L) (tl_writes L) ({[si_slot si]} ∪ tl_announced L) (tl_conf L) (tl_fin L))
| te_write a : 0 < d_slot a -> ~ is_confirmed L (d_slot a) -> ~ is_root L (d_slot a) -> (forall b, b ∈ tl_base L -> d_pubkey b = d_pubkey a -> d_slot b < d_slot a) ->
    tevent E L (TUpdate a Processed) (TLedger (tl_base L) (tl_writes L ++ [a]) (tl_announced L) (tl_conf L) (tl_fin L))
| te_confirm ord si : si_parent si < si_slot si -> seen E L (si_slot si) ->
    match tl_conf L with [] => ~ touched L (si_parent si) | (t, _) :: _ => si_parent si = t end ->
    tevent E L (TSlot ord si Confirmed) (TLedger (tl_base L) (tl_writes L) (tl_announced L) ((si_slot si, si_parent si) :: tl_conf L) (tl_fin L))
| te_confirm_again ord si : si_parent si < si_slot si -> is_confirmed L (si_slot si) -> unfinal L (si_slot si) -> tevent E L (TSlot ord si Confirmed) L
| te_finalize ord si : (si_slot si, si_parent si) ∈ tl_conf L -> unfinal L (si_slot si) ->
    tevent E L (TSlot ord si Finalized) (TLedger (tl_base L) (tl_writes L) (tl_announced L) (tl_conf L) (Some (si_slot si))).
Inductive t_orderly (E : ext) : list tsop -> tledger -> Prop :=
| to_nil : t_orderly E [] no_tledger
| to_snoc l L o L' : t_orderly E l L -> tevent E L o L' -> t_orderly E (l ++ [o]) L'.

(** Streams that are orderly except that a confirmed slot need not have reached the store, or that confirmations may skip a slot that has. *)
Inductive t_loose (E : ext) : bool -> list tsop -> tledger -> Prop :=
| tv_nil k : t_loose E k [] no_tledger
| tv_snoc k l L o L' : t_loose E k l L -> tevent E L o L' -> t_loose E k (l ++ [o]) L'
| tv_unseen l L ord si t u cs : t_loose E false l L -> tl_conf L = (t, u) :: cs -> si_parent si = t -> t < si_slot si ->
    t_loose E false (l ++ [TSlot ord si Confirmed]) (TLedger (tl_base L) (tl_writes L) (tl_announced L) ((si_slot si, t) :: tl_conf L) (tl_fin L))
| tv_skip l L ord si t u cs : t_loose E true l L -> tl_conf L = (t, u) :: cs -> t < si_parent si -> si_parent si < si_slot si -> seen E L (si_parent si) -> seen E L (si_slot si) ->
    t_loose E true (l ++ [TSlot ord si Confirmed]) (TLedger (tl_base L) (tl_writes L) (tl_announced L) ((si_slot si, si_parent si) :: (si_parent si, t) :: tl_conf L) (tl_fin L)).

(** Versions of an account that count at a commitment: those loaded, and the writes of the finalized or confirmed slots; for processed also the
    writes of all slots after the newest confirmed one, on whatever fork. *)
Definition tcounts (L : tledger) (c : commitment) (a : acct) : Prop :=
  a ∈ tl_base L \/ (a ∈ tl_writes L /\
    match c with
    | Finalized => is_final L (d_slot a)
    | Confirmed => is_confirmed L (d_slot a)
    | Processed => is_confirmed L (d_slot a) \/ match tl_conf L with [] => True | (t, _) :: _ => t < d_slot a end
    end).
(** [o] is the newest version of the account that counts. *)
Definition in_tledger (L : tledger) (pk : pubkey) (c : commitment) (o : option acct) : Prop :=
  match o with
  | Some x => (tcounts L c x /\ d_pubkey x = pk) /\ forall a, tcounts L c a -> d_pubkey a = pk -> older a x
  | None => forall a, tcounts L c a -> d_pubkey a <> pk
  end.

(** [pk] is the key of a token account: every version delivered is closed or a token account none of whose bytes the store loses (C41), it is never a
    mint or multisig, and shares its first four bytes with no other account.  Moreover, whenever it leaves the token programs (as closed accounts
    do), it is open in the finalized ledger at that moment. *)
Record token_account_alone (E : ext) (l : list tsop) (pk : pubkey) : Prop := TokenAccountAlone {
  tk_kind : forall o a, o ∈ l -> op_acct o = Some a -> d_pubkey a = pk ->
    closed a \/ exists p v r, live_with E a p v /\ clean_token v /\ unpack_account v = Some r;
  tk_names : forall o, o ∈ l -> ~ op_names E o pk /\ ~ op_mint E o pk;
  tk_alone : forall o, o ∈ l -> ~ op_collides o pk }.
Record token_account_key (E : ext) (l : list tsop) (pk : pubkey) : Prop := TokenAccountKey {
  tk_here : token_account_alone E l pk;
  tk_leaves : forall l1 o l2 a L, l = l1 ++ o :: l2 -> op_acct o = Some a -> d_pubkey a = pk -> ~ token_owned a -> t_orderly E l1 L ->
    forall x, in_tledger L pk Finalized x -> exists y, x = Some y /\ ~ closed y }.
(** Whatever the account's mint is, its key is only ever delivered as an open mint, and one version of it is finalized (or loaded). *)
Definition mints_known (E : ext) (l : list tsop) (L : tledger) (pk : pubkey) : Prop :=
  forall o a p v r, o ∈ l -> op_acct o = Some a -> d_pubkey a = pk -> live_with E a p v -> unpack_account v = Some r ->
    (forall o' b, o' ∈ l -> op_acct o' = Some b -> d_pubkey b = sa_mint r -> exists q w, live_with E b q w /\ is_Some (unpack_mint w)) /\
    exists m, tcounts L Finalized m /\ d_pubkey m = sa_mint r.
(** What a read answers for the version [o]: key, owner and data; the slot of the version while it is not final, and then that of the newest
    finalized slot. *)
Definition answers (E : ext) (L : tledger) (o : option acct) (x : option acct) : Prop :=
  match o with
  | None => x = None
  | Some a =>
      (closed a /\ x = None) \/
      (~ closed a /\ exists b, x = Some b /\ d_pubkey b = d_pubkey a /\ d_owner b = d_owner a /\ data_bytes E (d_data b) = data_bytes E (d_data a) /\
         ((a ∈ tl_writes L /\ ~ is_final L (d_slot a) /\ d_slot b = d_slot a) \/ (tcounts L Finalized a /\ d_slot b = default 0 (tl_fin L))))
  end.
