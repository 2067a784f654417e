(** Concurrent calls of [account_storage/src/inmemory_account_store.rs].

    Every call is cut at its lock operations; each piece runs atomically.  Simplifications:
    - the shard lock of [pubkey_to_account_index] that [update_account] holds while inserting a new
      account is taken per pubkey ([cs_pend]); the real shard covers more pubkeys, so it allows fewer
      interleavings;
    - [accounts_store] is only locked for writing during a push; pushing is one piece;
    - the body of the Occupied branch of [update_account] (221-242) and one iteration of the loop of
      [process_slot_data] (430-453) run under the entry's write lock and are one piece each; the owner
      sets they change inside are observed by nothing but program queries, which are not interleaved here;
    - blocking forever is the subject of LockModel.v. *)
From Verif Require Import Base DataModel FilterModel BincodeModel ByCommitModel StoreModel.

(** The Vacant branch, 243-260, in progress: index, account, commitment, and how far it is
    (0: pushed, 1: owner added, 2: status added). *)
Record pend := Pend { pd_i : nat; pd_acct : acct; pd_c : commitment; pd_stage : nat }.
(** Where a call is. *)
Inductive thr :=
| TUpd (a : acct) (c : commitment)      (* update_account, before 209 *)
| TIdx (a : acct) (c : commitment)      (* before 146 *)
| TStat (a : acct) (c : commitment) (i : nat) (* before 116 *)
| TEntry (a : acct) (c : commitment)    (* before 220, commitment already corrected *)
| TIns (pk : pubkey)                    (* in the Vacant branch, holding the shard *)
| TSlot (si : slot_info) (c : commitment) (* process_slot_data, before 352 *)
| TProm (c : commitment) (l : list (nat * N)) (out : list acct) (* in the loop 430-453 *)
| TGet (pk : pubkey) (c : commitment)   (* get_account, before 275 *)
| TGetAt (i : nat) (c : commitment)     (* before 279 *)
| TDone (r : outcome).
Record cstate := CS { cs_st : store; cs_pend : gmap pubkey pend; cs_thr : list thr }.

(** [bc_update] and owner bookkeeping under the entry lock, 221-242. *)
Definition occupied (F : filt) (st : store) (a : acct) (c : commitment) (i : nat) : res (store * bool) :=
  b ← unwrap (st_accounts st !! i);
  let prev := bc_get b c in
  let '(b', updated) := bc_update b a c in
  if updated : bool then
    match prev with
    | Some p =>
        '(ow, del) ← update_owner_delete F (st_owners st) p a i c;
        if del : bool
        then Done (Store (delete (d_pubkey a) (st_index st)) ow (st_slots st) (<[i := bc_empty]> (st_accounts st)), true)
        else Done (Store (st_index st) ow (st_slots st) (<[i := b']> (st_accounts st)), true)
    | None => Done (Store (st_index st) (st_owners st) (st_slots st) (<[i := b']> (st_accounts st)), true)
    end
  else Done (Store (st_index st) (st_owners st) (st_slots st) (<[i := b']> (st_accounts st)), false).

(** One piece of a call.  [None]: blocked by the shard lock.  [F]: the filter answers at this moment. *)
Definition piece (F : filt) (st : store) (pd : gmap pubkey pend) (t : thr)
    : option (res (store * gmap pubkey pend * thr)) :=
  match t with
  | TUpd a c =>
      if negb (is_deleted a) && negb (fl_sat F a) then
        match pd !! d_pubkey a with
        | Some _ => None
        | None => if contains_key st (d_pubkey a) then Some (Done (st, pd, TIdx a c))
                  else Some (Done (st, pd, TDone (RUpdate false)))
        end
      else Some (Done (st, pd, TIdx a c))
  | TIdx a c =>
      match pd !! d_pubkey a with
      | Some _ => None
      | None => Some (Done (st, pd, match st_index st !! d_pubkey a with
                                    | None => TEntry a c
                                    | Some i => TStat a c i
                                    end))
      end
  | TStat a c i =>
      let '(sl, c') := add_to_status (st_slots st) (d_slot a) i c in
      Some (Done (Store (st_index st) (st_owners st) sl (st_accounts st), pd, TEntry a c'))
  | TEntry a c =>
      match pd !! d_pubkey a with
      | Some _ => None
      | None =>
          match st_index st !! d_pubkey a with
          | Some i => Some ('(st', b) ← occupied F st a c i; Done (st', pd, TDone (RUpdate b)))
          | None =>
              if fl_sat F a then
                Some (Done (Store (st_index st) (st_owners st) (st_slots st) (st_accounts st ++ [bc_new a c]),
                            <[d_pubkey a := Pend (length (st_accounts st)) a c 0]> pd, TIns (d_pubkey a)))
              else Some (Done (st, pd, TDone (RUpdate false)))
          end
      end
  | TIns pk =>
      match pd !! pk with
      | None => Some Panic
      | Some (Pend i a c 0) =>
          Some (Done (Store (st_index st) (add_owner (st_owners st) i (d_owner a)) (st_slots st) (st_accounts st),
                      <[pk := Pend i a c 1]> pd, t))
      | Some (Pend i a c 1) =>
          Some (Done (Store (st_index st) (st_owners st) (add_to_status (st_slots st) (d_slot a) i c).1 (st_accounts st),
                      <[pk := Pend i a c 2]> pd, t))
      | Some (Pend i a c _) =>
          Some (Done (Store (<[pk := i]> (st_index st)) (st_owners st) (st_slots st) (st_accounts st),
                      delete pk pd, TDone (RUpdate true)))
      end
  | TSlot si c =>
      match slot_phase (st_slots st) si c with
      | None => Some Panic
      | Some (sl, wa) => Some (Done (Store (st_index st) (st_owners st) sl (st_accounts st), pd,
                                     TProm c (map_to_list wa) []))
      end
  | TProm c [] out => Some (Done (st, pd, TDone (RSlot out)))
  | TProm c ((i, s) :: l) out =>
      (* 443 removes a pubkey from the index, which needs its shard; an inserting call holds only
         pubkeys that are not in the index, so per pubkey the removal never waits *)
      Some ('(st', out') ← promote_one F st out i s c; Done (st', pd, TProm c l out'))
  | TGet pk c =>
      match pd !! pk with
      | Some _ => None
      | None => Some (Done (st, pd, match st_index st !! pk with
                                    | None => TDone (RGet (ROk None))
                                    | Some i => TGetAt i c
                                    end))
      end
  | TGetAt i c =>
      Some (b ← unwrap (st_accounts st !! i);
            Done (st, pd, TDone (RGet (ROk (match bc_get b c with
                                            | Some a => if 0 <? d_lamports a then Some a else None
                                            | None => None
                                            end)))))
  | TDone _ => None
  end.

(** Step of thread [j]; [Panic] when its piece panics. *)
Inductive cstep (cs : cstate) (F : filt) (j : nat) : res cstate -> Prop :=
| cs_done t st pd t' : cs_thr cs !! j = Some t -> piece F (cs_st cs) (cs_pend cs) t = Some (Done (st, pd, t')) ->
    cstep cs F j (Done (CS st pd (<[j := t']> (cs_thr cs))))
| cs_panic t : cs_thr cs !! j = Some t -> piece F (cs_st cs) (cs_pend cs) t = Some Panic ->
    cstep cs F j Panic
(* the hash map of touched accounts may be visited in any order *)
| cs_shuffle c l l' out : cs_thr cs !! j = Some (TProm c l out) -> Permutation l' l ->
    cstep cs F j (Done (CS (cs_st cs) (cs_pend cs) (<[j := TProm c l' out]> (cs_thr cs))))
(* a new call *)
| cs_call t : cs_thr cs !! j = None -> j = length (cs_thr cs) ->
    match t with TUpd _ _ | TSlot _ _ | TGet _ _ => True | _ => False end ->
    cstep cs F j (Done (CS (cs_st cs) (cs_pend cs) (cs_thr cs ++ [t]))).
Definition cs_empty : cstate := CS store_empty ∅ [].
Inductive creach : cstate -> cstate -> Prop :=
| creach_refl cs : creach cs cs
| creach_step cs F j cs1 cs2 : cstep cs F j (Done cs1) -> creach cs1 cs2 -> creach cs cs2.
