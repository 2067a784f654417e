(** Specification vocabulary for the token program store: the finalized deliveries of a history and the state they add up to. *)
From Verif Require Import Base DataModel FilterModel StoreModel TokenModel SplModel TokenUtilsModel TokenPendModel TokenStoreModel.

(** What an account update is taken to be, when it is accepted at all. *)
Definition accepted (E : ext) (ts : tstore) (a : acct) : option tpa :=
  match is_token ts a with
  | Done true =>
      match account_type E a (ts_mint_ix ts) (ts_ctr ts) with
      | Done (Some (ty, _, _)) => Some ty
      | _ => None
      end
  | _ => None
  end.
(** The accounts an operation finalizes, in order, with the slot of each version that comes from the pending store. *)
Definition deliveries (E : ext) (ts : tstore) (o : tsop) : list (tpa * option N) :=
  match o with
  | TUpdate a Finalized | TInit a => match accepted E ts a with Some ty => [(ty, None)] | None => [] end
  | TSlot ord si Finalized =>
      let p := if ts_fin ts <? si_slot si then pd_slot_info (ts_pend ts) si else ts_pend ts in
      (fun x => (x.2.1.1, Some x.2.2)) <$> ord (pd_finalize p (si_slot si)).2
  | _ => []
  end.
Fixpoint ts_log (E : ext) (X : lz4x) (ts : tstore) (l : list tsop) : list (tpa * option N) :=
  match l with
  | [] => []
  | o :: l' => deliveries E ts o ++ match ts_step E X ts o with Done ts' => ts_log E X ts' l' | Panic => [] end
  end.
(** A condition on every state of a run. *)
Fixpoint along (E : ext) (X : lz4x) (P : tstore -> Prop) (ts : tstore) (l : list tsop) : Prop :=
  P ts /\ match l with [] => True | o :: l' => match ts_step E X ts o with Done ts' => along E X P ts' l' | Panic => True end end.

(** The state the deliveries for one key add up to, by kind of account. *)
Definition tok_step (pk : pubkey) (o : option token_account) (a : tpa) : option token_account :=
  match a with
  | TPToken t => if ta_pubkey t =? pk then Some t else o
  | TPDeleted q => if q =? pk then None else o
  | _ => o
  end.
Definition tok_state (l : list tpa) (pk : pubkey) : option token_account := foldl (tok_step pk) None l.
Definition mint_step (pk : pubkey) (o : option mint_account) (a : tpa) : option mint_account :=
  match a with
  | TPMint m => if ma_pubkey m =? pk then Some m else o
  | TPDeleted q => if q =? pk then None else o
  | _ => o
  end.
Definition mint_state (l : list tpa) (pk : pubkey) : option mint_account := foldl (mint_step pk) None l.
Definition multi_step (pk : pubkey) (o : option multisig) (a : tpa) : option multisig :=
  match a with
  | TPMulti m q => if q =? pk then Some m else o
  | _ => o
  end.
(** Closing a multisig is ignored by the store. *)
Definition multi_state (l : list tpa) (pk : pubkey) : option multisig := foldl (multi_step pk) None l.

(** Pubkeys are 32 bytes, slots and write versions are what they are; snapshots are treated separately; drains enumerate their map. *)
Definition op_ok (o : tsop) : Prop :=
  match o with
  | TUpdate a _ | TInit a => d_pubkey a < 2 ^ 256
  | TSlot ord _ _ => forall m, ord m ≡ₚ map_to_list m
  | TLoad _ _ => False
  end.
Definition ops_ok (l : list tsop) : Prop := Forall op_ok l.

(** The account an operation delivers. *)
Definition op_acct (o : tsop) : option acct := match o with TUpdate a _ | TInit a => Some a | _ => None end.
(** The data of the delivered account is a token account of the mint [pk]. *)
Definition op_names (E : ext) (o : tsop) (pk : pubkey) : Prop :=
  exists a v r, op_acct o = Some a /\ data_bytes E (d_data a) = Done v /\ unpack_account v = Some r /\ sa_mint r = pk.
(** The delivered account is the mint [pk]. *)
Definition op_mint (E : ext) (o : tsop) (pk : pubkey) : Prop :=
  exists a v, op_acct o = Some a /\ d_pubkey a = pk /\ data_bytes E (d_data a) = Done v /\ is_Some (unpack_mint v).
(** The delivered account is another one that shares its first four bytes with [pk]. *)
Definition op_collides (o : tsop) (pk : pubkey) : Prop :=
  exists a, op_acct o = Some a /\ d_pubkey a <> pk /\ take 4 (le 32 (d_pubkey a)) = take 4 (le 32 pk).
(** The operation delivers an account that is not finalized yet. *)
Definition op_pends (o : tsop) : Prop := match o with TUpdate _ c => c <> Finalized | _ => False end.
(** The operation delivers a version of [pk]; it closes [pk] (or moves it away from the token programs); it is the multisig [pk]. *)
Definition op_about (o : tsop) (pk : pubkey) : Prop := exists a, op_acct o = Some a /\ d_pubkey a = pk.
Definition op_closes (o : tsop) (pk : pubkey) : Prop :=
  exists a, op_acct o = Some a /\ d_pubkey a = pk /\ (d_lamports a = 0 \/ (d_owner a <> spl_token_id /\ d_owner a <> spl_2022_id)).
Definition op_multi (E : ext) (o : tsop) (pk : pubkey) : Prop :=
  exists a v, op_acct o = Some a /\ d_pubkey a = pk /\ data_bytes E (d_data a) = Done v /\ is_Some (unpack_multisig v).

(** The delivered account is the token account [pk] with content [r]. *)
Definition op_token (E : ext) (o : tsop) (pk : pubkey) (r : spl_account) : Prop :=
  exists a v, op_acct o = Some a /\ d_pubkey a = pk /\ data_bytes E (d_data a) = Done v /\ unpack_account v = Some r.
(** Some operation delivers [pk] as a token account. *)
Definition token_key (E : ext) (l : list tsop) (pk : pubkey) : Prop := exists o r, o ∈ l /\ op_token E o pk r.
(** Keys of token accounts are used for nothing else and share their first four bytes with no other account. *)
Definition tidy (E : ext) (l : list tsop) : Prop :=
  forall o pk r, o ∈ l -> op_token E o pk r -> forall o', o' ∈ l ->
    ~ op_names E o' pk /\ ~ op_mint E o' pk /\ ~ op_multi E o' pk /\ ~ op_collides o' pk.
(** Token accounts keep their owner; their mint; mints are never closed. *)
Definition keeps_owner (E : ext) (l : list tsop) : Prop :=
  forall o o' pk r r', o ∈ l -> o' ∈ l -> op_token E o pk r -> op_token E o' pk r' -> sa_owner r = sa_owner r'.
Definition keeps_mint (E : ext) (l : list tsop) : Prop :=
  forall o o' pk r r', o ∈ l -> o' ∈ l -> op_token E o pk r -> op_token E o' pk r' -> sa_mint r = sa_mint r'.
Definition mints_stay (E : ext) (l : list tsop) : Prop :=
  forall o o' pk, o ∈ l -> o' ∈ l -> op_names E o pk \/ op_mint E o pk -> ~ op_closes o' pk.

(** The newest slot finalized by a history. *)
Definition fin_after (l : list tsop) : N :=
  foldl (fun f o => match o with TSlot _ si Finalized => N.max f (si_slot si) | _ => f end) 0 l.
(** Every account arrives before its slot is finalized and for a slot newer than all finalized ones; parents come before their slots. *)
Definition in_order (l : list tsop) : Prop :=
  forall l1 o l2, l = l1 ++ o :: l2 ->
    match o with
    | TUpdate a c => c <> Finalized /\ fin_after l1 < d_slot a
    | TSlot _ si _ => si_parent si < si_slot si
    | _ => False
    end.
