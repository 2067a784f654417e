(** Locks taken by the operations of the token store, [token_account_storage/src/inmemory_token_storage.rs]
    (file S) and [inmemory_token_account_storage.rs] (file A).

    As in LockModel.v every operation is reduced to the lock acquisitions and releases it can perform,
    all branches and all shards being possible.  An [Entry] or [RefMut] of a DashMap is a write guard
    on the shard, a [Ref] a read guard; [insert], [remove] and [contains_key] hold the shard for a
    moment.  Simplifications: guards are released in the reverse order of their acquisition; panics
    are left out. *)
From Verif Require Import Base LockModel.

(** [l] is held around [t]. *)
Definition within (l : lk) (w : bool) (t : list instr) : list instr := [Acq l w] ++ t ++ [Rel l].

(** [Iter::next] of dashmap 5.5.3 (not in /repo): the next shard is locked before the guard of the
    current one is dropped.  [c] is the map, [i] the shard held, [n] the number of shards to come. *)
Fixpoint walk (c : nat -> lk) (i n : nat) : list instr :=
  match n with
  | O => [Rel (c i)]
  | S n => [Acq (c (S i)) false; Rel (c i)] ++ walk c (S i) n
  end.
(** [iter()] over a map of [S n] shards. *)
Definition iter_shards (c : nat -> lk) (n : nat) : list instr := [Acq (c 0%nat) false] ++ walk c 0 n.

(** ** The table of token accounts *)
(** [contains], A 38-58, and [get_by_pubkey], A 111-127. *)
Inductive t_lookup : list instr -> Prop :=
| lk_alone k : t_lookup (brief (TKey k) true)
| lk_table k : t_lookup (within (TKey k) true (brief TTable false)).
(** [save_or_update], A 60-96. *)
Inductive t_save : list instr -> Prop :=
| sv k : t_save (within (TKey k) true (brief TTable true)).
(** [delete], A 129-156. *)
Inductive t_delete : list instr -> Prop :=
| dl_none k : t_delete (brief (TKey k) true)
| dl_some k : t_delete (brief (TKey k) true ++ brief TTable true).
(** [get_by_index], A 98-109; [create_snapshot], A 158-170. *)
Definition t_rows : list instr := brief TTable false.

(** ** The pending store *)
(** [insert_account], S 61-124; [update_slot_info], S 126-148; [finalize], S 179-224. *)
Definition t_pend_write : list instr := brief TPend true.
(** [token_program_account_to_solana_account], token_program_utils.rs 453-473 (with 247-257). *)
Inductive t_to_solana : list instr -> Prop :=
| ts_no : t_to_solana []
| ts_mint k : t_to_solana (brief (TMint k) false).
(** [get_processed_for_slot], S 150-176: the mint is read below the pending guard. *)
Inductive t_processed_for : list instr -> Prop :=
| pf_some (ts : list (list instr)) : (forall t, t ∈ ts -> t_to_solana t) -> t_processed_for (within TPend false (concat ts))
| pf_none : t_processed_for (brief TPend false ++ t_pend_write).
(** [get_accounts], S 258-300, with [get_confirmed_accounts], S 226-256. *)
Inductive t_get_accounts : list instr -> Prop :=
| ga_one : t_get_accounts (brief TPend false)
| ga_two : t_get_accounts (brief TPend false ++ brief TPend false).

(** ** The store *)
(** [is_token_program_account], S 402-412. *)
Inductive t_is_token : list instr -> Prop :=
| it_mint k : t_is_token (brief (TMintIdx k) false)
| it_multi k m : t_is_token (brief (TMintIdx k) false ++ brief (TMulti m) false)
| it_table k m t : t_lookup t -> t_is_token (brief (TMintIdx k) false ++ brief (TMulti m) false ++ t).
(** [get_token_program_account_type], token_program_utils.rs 55-245: [get_or_create_mint_index], 40-53,
    is the only lock. *)
Inductive t_classify : list instr -> Prop :=
| cl_no : t_classify []
| cl_mint k : t_classify (brief (TMintIdx k) true).
(** [add_account_finalized], S 334-400. *)
Inductive t_add_finalized : list instr -> Prop :=
| af_update t : t_save t -> t_add_finalized t
| af_added t m o : t_save t -> t_add_finalized (t ++ brief (TByMint m) true ++ brief (TByOwner o) true)
| af_mint k m : t_add_finalized (within (TMintIdx k) true (brief (TMint m) true))
| af_multi k : t_add_finalized (brief (TMulti k) true)
| af_closed_mint k m a : t_add_finalized (brief (TMintIdx k) true ++ brief (TMint m) true ++ brief (TByMint a) true)
| af_closed_other k : t_add_finalized (brief (TMintIdx k) true ++ brief (TMintIdx k) true)
| af_closed k t : t_delete t -> t_add_finalized (brief (TMintIdx k) true ++ brief (TMintIdx k) true ++ t).
(** [update_account], S 558-589; [initilize_or_update_account], S 591-614. *)
Inductive t_tupdate : list instr -> Prop :=
| tu_reject t : t_is_token t -> t_tupdate t
| tu_unknown t c : t_is_token t -> t_classify c -> t_tupdate (t ++ c)
| tu_pending t c : t_is_token t -> t_classify c -> t_tupdate (t ++ c ++ t_pend_write)
| tu_final t c a : t_is_token t -> t_classify c -> t_add_finalized a -> t_tupdate (t ++ c ++ a).
(** [get_account_finalized], S 414-445. *)
Inductive t_get_finalized : list instr -> Prop :=
| gf_multi k : t_get_finalized (brief (TMulti k) false)
| gf_mint k i m : t_get_finalized (brief (TMulti k) false ++ within (TMintIdx i) false (brief (TMint m) false))
| gf_table k i t s : t_lookup t -> t_to_solana s ->
    t_get_finalized (brief (TMulti k) false ++ brief (TMintIdx i) false ++ t ++ s).
(** [get_account], S 616-645. *)
Inductive t_tget : list instr -> Prop :=
| tg_final t : t_get_finalized t -> t_tget t
| tg_pending t s : t_get_accounts t -> t_to_solana s -> t_tget (t ++ s)
| tg_fallback t f : t_get_accounts t -> t_get_finalized f -> t_tget (t ++ f).
(** [get_program_accounts_finalized], S 447-547. *)
Inductive t_gpa_finalized : list instr -> Prop :=
| gp_error : t_gpa_finalized []
| gp_owner_none o : t_gpa_finalized (brief (TByOwner o) true)
| gp_owner_mint_none o i : t_gpa_finalized (brief (TByOwner o) true ++ brief (TMintIdx i) false)
| gp_owner o (ts : list (list instr)) : (forall t, t ∈ ts -> t_to_solana t) ->
    t_gpa_finalized (brief (TByOwner o) true ++ t_rows ++ concat ts)
| gp_owner_mint o i (ts : list (list instr)) : (forall t, t ∈ ts -> t_to_solana t) ->
    t_gpa_finalized (brief (TByOwner o) true ++ brief (TMintIdx i) false ++ t_rows ++ concat ts)
| gp_mint_none i : t_gpa_finalized (brief (TMintIdx i) false)
| gp_mint_empty i a : t_gpa_finalized (within (TMintIdx i) false (brief (TByMint a) false))
| gp_mint i a (ts : list (list instr)) : (forall t, t ∈ ts -> t_to_solana t) ->
    t_gpa_finalized (within (TMintIdx i) false (within (TByMint a) false (t_rows ++ concat ts)))
| gp_mints n : t_gpa_finalized (iter_shards TMint n).
(** [get_program_accounts], S 647-693. *)
Inductive t_tgpa : list instr -> Prop :=
| tp_final t : t_gpa_finalized t -> t_tgpa t
| tp_overlay t g (ts : list (list instr)) : t_gpa_finalized t -> t_get_accounts g -> (forall t, t ∈ ts -> t_to_solana t) ->
    t_tgpa (t ++ g ++ concat ts).
(** [process_slot_data], S 695-738.  A notification that is not newer skips [update_slot_info]. *)
Inductive t_tslot : list instr -> Prop :=
| sl_processed : t_tslot t_pend_write
| sl_confirmed u t : u = [] \/ u = t_pend_write -> t_processed_for t -> t_tslot (u ++ t)
| sl_finalized u (ts adds : list (list instr)) : u = [] \/ u = t_pend_write -> (forall t, t ∈ ts -> t_to_solana t) ->
    (forall t, t ∈ adds -> t_add_finalized t) -> t_tslot (u ++ t_pend_write ++ concat ts ++ concat adds).
(** [create_snapshot], S 740-777. *)
Inductive t_tsnap : list instr -> Prop :=
| sn_wrong : t_tsnap []
| sn n m : t_tsnap (iter_shards TMint n ++ iter_shards TMulti m ++ t_rows).
(** One mint of the loop S 801-813 of [load_from_snapshot]. *)
Inductive t_load_mint : list instr -> Prop :=
| lm_known k m : t_load_mint (within (TMintIdx k) true (brief (TMint m) true))
| lm_new k m : t_load_mint (brief (TMintIdx k) true ++ brief (TMint m) true).
(** The two entries S 823-840: the shard is locked a second time when the key is new. *)
Inductive t_push (l : lk) : list instr -> Prop :=
| pu_some : t_push l (brief l true)
| pu_none : t_push l (brief l true ++ brief l true).
(** One token account of the loop S 815-842. *)
Inductive t_load_row : list instr -> Prop :=
| lr_update t : t_save t -> t_load_row t
| lr_added t o m p q : t_save t -> t_push (TByOwner o) p -> t_push (TByMint m) q -> t_load_row (t ++ p ++ q).
(** [load_from_snapshot], S 779-845. *)
Inductive t_tload : list instr -> Prop :=
| ld_error : t_tload []
| ld (multis : list nat) (mints rows : list (list instr)) : (forall t, t ∈ mints -> t_load_mint t) -> (forall t, t ∈ rows -> t_load_row t) ->
    t_tload (concat (map (fun k => brief (TMulti k) true) multis) ++ concat mints ++ concat rows).

(** A call of the store's interface. *)
Inductive t_tcall : list instr -> Prop :=
| tc_update t : t_tupdate t -> t_tcall t
| tc_get t : t_tget t -> t_tcall t
| tc_gpa t : t_tgpa t -> t_tcall t
| tc_slot t : t_tslot t -> t_tcall t
| tc_snap t : t_tsnap t -> t_tcall t
| tc_load t : t_tload t -> t_tcall t.
