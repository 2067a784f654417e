(** Model of [account_storage/src/inmemory_account_store.rs].

    Simplifications, here and below: locks are left out (each operation runs alone; the
    interleavings are modelled in ConcModel.v and LockModel.v); logging is left out, metrics
    are in GaugeModel.v; [BTreeSet]/[HashMap] used as a set/map are std++ [gset]/[gmap], so the order of query
    answers is not modelled ([HashMap] iteration order in [process_slot_data] is treated in
    StoreOrder.v). *)
From Verif Require Import Base DataModel FilterModel BincodeModel ByCommitModel.

(** [AccountLoadingError], account_store_interface.rs 7-20. *)
Inductive load_error := AccountNotFound | ConfigDoesnotContainRequiredFilters | OperationTimeOut
 | ErrorCreatingSnapshot | ErrorSubscribingAccount | TokenAccountsSizeNotFound
 | TokenAccountsCannotUseThisFilter | WrongIndex | ShouldContainAnAccountFilter
 | DeserializationIssues | CompressionIssues.
(** Rust [Result<A, AccountLoadingError>]. *)
Inductive result (A : Type) := ROk (a : A) | RErr (e : load_error).
Arguments ROk {_} _.
Arguments RErr {_} _.

(** [dyn AccountFiltersStoreInterface], account_filters_interface.rs: the answers of the filter
    store at the time of a call.  Every operation gets its own, so theorems over histories cover
    filter stores that change between calls. *)
Record filt := Filt { fl_sat : acct -> bool; fl_contains : afilter -> bool }.

(** [SlotStatus], 32-36. *)
Record status := Status { ss_commit : commitment; ss_accounts : gset nat; ss_parent : option N }.

(** [InmemoryAccountStore], 39-45 ([filtered_accounts] is passed to each operation;
    [slots_status] is a [BTreeMap] used as a map except for the pruning of 413-422). *)
Record store := Store {
  st_index : gmap pubkey nat;
  st_owners : gmap pubkey (gset nat);
  st_slots : gmap N status;
  st_accounts : list bycom;
}.
(** [new], 48-56. *)
Definition store_empty : store := Store ∅ ∅ ∅ [].

(** [is_deleted], 164-166. *)
Definition is_deleted (a : acct) : bool := d_lamports a =? 0.

(** [account_store_contains_key], 168-170. *)
Definition contains_key (st : store) (pk : pubkey) : bool := bool_decide (is_Some (st_index st !! pk)).

(** [add_account_owner], 58-69. *)
Definition add_owner (ow : gmap pubkey (gset nat)) (i : nat) (p : pubkey) : gmap pubkey (gset nat) :=
  <[p := {[i]} ∪ default ∅ (ow !! p)]> ow.

(** [update_owner_delete_if_necessary], 74-107. *)
Definition update_owner_delete (F : filt) (ow : gmap pubkey (gset nat)) (prev new : acct) (i : nat)
    (c : commitment) : res (gmap pubkey (gset nat) * bool) :=
  if bool_decide (d_pubkey prev = d_pubkey new) then
    if bool_decide (d_owner prev = d_owner new) then Done (ow, false)
    else
      let ow1 := match c with
                 | Finalized => alter (fun s => s ∖ {[i]}) (d_owner prev) ow
                 | _ => ow
                 end in
      if bool_decide (c = Finalized) && (is_deleted new || negb (fl_sat F new)) then Done (ow1, true)
      else if negb (is_deleted new) && fl_sat F new
           then Done (add_owner ow1 i (d_owner new), false)
           else Done (ow1, false)
  else Panic.

(** [add_account_index_to_slot_status], 110-139. *)
Definition add_to_status (sl : gmap N status) (s : N) (i : nat) (c : commitment)
    : gmap N status * commitment :=
  let ss := default (Status c ∅ None) (sl !! s) in
  match c with
  | Finalized => (<[s := ss]> sl, Finalized)
  | _ => (<[s := Status (ss_commit ss) ({[i]} ∪ ss_accounts ss) (ss_parent ss)]> sl, ss_commit ss)
  end.

(** [maybe_update_slot_status], 141-158. *)
Definition maybe_update_status (st : store) (a : acct) (c : commitment) : gmap N status * commitment :=
  match st_index st !! d_pubkey a with
  | None => (st_slots st, c)
  | Some i => add_to_status (st_slots st) (d_slot a) i c
  end.

(** [update_account], 205-264.  [read_lk[index]] panics when out of bounds. *)
Definition update_account (F : filt) (st : store) (a : acct) (c : commitment) : res (store * bool) :=
  if negb (is_deleted a) && negb (fl_sat F a) && negb (contains_key st (d_pubkey a))
  then Done (st, false)
  else
    let '(slots, c') := maybe_update_status st a c in
    match st_index st !! d_pubkey a with
    | Some i =>
        b ← unwrap (st_accounts st !! i);
        let prev := bc_get b c' in
        let '(b', updated) := bc_update b a c' in
        if updated : bool then
          match prev with
          | Some p =>
              '(ow, del) ← update_owner_delete F (st_owners st) p a i c';
              if del : bool
              then Done (Store (delete (d_pubkey a) (st_index st)) ow slots
                               (<[i := bc_empty]> (st_accounts st)), true)
              else Done (Store (st_index st) ow slots (<[i := b']> (st_accounts st)), true)
          | None => Done (Store (st_index st) (st_owners st) slots (<[i := b']> (st_accounts st)), true)
          end
        else Done (Store (st_index st) (st_owners st) slots (<[i := b']> (st_accounts st)), false)
    | None =>
        if fl_sat F a then
          let i := length (st_accounts st) in
          let ow := add_owner (st_owners st) i (d_owner a) in
          let '(slots', _) := add_to_status slots (d_slot a) i c' in
          Done (Store (<[d_pubkey a := i]> (st_index st)) ow slots' (st_accounts st ++ [bc_new a c']), true)
        else Done (Store (st_index st) (st_owners st) slots (st_accounts st), false)
    end.

(** [initilize_or_update_account], 266-268. *)
Definition init_account (F : filt) (st : store) (a : acct) : res store :=
  '(st', _) ← update_account F st a Finalized; Done st'.

(** [get_account], 270-292. *)
Definition get_account (st : store) (pk : pubkey) (c : commitment) : res (result (option acct)) :=
  match st_index st !! pk with
  | None => Done (ROk None)
  | Some i =>
      b ← unwrap (st_accounts st !! i);
      match bc_get b c with
      | Some a => if 0 <? d_lamports a then Done (ROk (Some a)) else Done (ROk None)
      | None => Done (ROk None)
      end
  end.

(** [get_account_with_filtering_from_lock], 172-201: what is pushed for one entry. *)
Definition gpa_entry (E : ext) (b : bycom) (c : commitment) (p : pubkey) (fl : option (list cond))
    : res (list acct) :=
  match fl with
  | Some fl =>
      o ← bc_get_filtered E b c fl;
      Done (match o with
            | Some a => if (0 <? d_lamports a) && bool_decide (d_owner a = p) then [a] else []
            | None => []
            end)
  | None =>
      Done (match bc_get b c with
            | Some a => if bool_decide (p = d_owner a) then [a] else []
            | None => []
            end)
  end.

(** The loops 318-344; the retry pass visits the entries skipped by the first pass, so each
    index is visited once. *)
Fixpoint gpa_loop (E : ext) (accs : list bycom) (c : commitment) (p : pubkey) (fl : option (list cond))
    (idx : list nat) : res (list acct) :=
  match idx with
  | [] => Done []
  | i :: idx' =>
      b ← unwrap (accs !! i);
      l ← gpa_entry E b c p fl;
      ls ← gpa_loop E accs c p fl idx';
      Done (l ++ ls)
  end.

(** [get_program_accounts], 294-347. *)
Definition get_program_accounts (E : ext) (F : filt) (st : store) (p : pubkey) (fl : option (list cond))
    (c : commitment) : res (result (list acct)) :=
  if fl_contains F (AFilter [] (Some p) fl) then
    match st_owners st !! p with
    | None => Done (ROk [])
    | Some s => l ← gpa_loop E (st_accounts st) c p fl (elements s); Done (ROk l)
    end
  else Done (RErr ConfigDoesnotContainRequiredFilters).

(** The loop over a slot and its ancestors, 353-410.  [wa] maps account index to the first
    visited slot that wrote it.  [fuel] bounds the number of iterations; [None] = out of fuel. *)
Fixpoint slot_walk (fuel : nat) (sl : gmap N status) (wa : gmap nat N) (s : N) (par : option N)
    (info_parent : N) (c : commitment) : option (gmap N status * gmap nat N) :=
  match fuel with
  | O => None
  | S fuel' =>
      match sl !! s with
      | Some ss =>
          if bool_decide (ss_commit ss = c) then Some (sl, wa)
          else
            let parent := match par with Some _ => par | None => ss_parent ss end in
            let sl' := <[s := Status c (ss_accounts ss) parent]> sl in
            let wa' := wa ∪ gset_to_gmap s (ss_accounts ss) in
            match c, parent with
            | Processed, _ => Some (sl', wa')
            | _, None => Some (sl', wa')
            | _, Some p => slot_walk fuel' sl' wa' p None info_parent c
            end
      | None =>
          match c with
          | Finalized => Some (sl, wa)
          | _ => Some (<[s := Status c ∅ (Some info_parent)]> sl, wa)
          end
      end
  end.

(** Pruning of slot statuses, 413-422: pops the first entries while their slot is smaller. *)
Definition prune_slots (s : N) (sl : gmap N status) : gmap N status :=
  filter (fun kv => s <= kv.1) sl.

(** One iteration of the loop 430-453. *)
Definition promote_one (F : filt) (st : store) (out : list acct) (i : nat) (s : N) (c : commitment)
    : res (store * list acct) :=
  b ← unwrap (st_accounts st !! i);
  let '(b', r) := bc_promote b s c in
  match r with
  | None => Done (Store (st_index st) (st_owners st) (st_slots st) (<[i := b']> (st_accounts st)), out)
  | Some (a, prev) =>
      match prev with
      | None => Done (Store (st_index st) (st_owners st) (st_slots st) (<[i := b']> (st_accounts st)), out ++ [a])
      | Some p =>
          if negb (bool_decide (d_owner p = d_owner a)) || (d_lamports a =? 0) then
            '(ow, del) ← update_owner_delete F (st_owners st) p a i c;
            if del : bool
            then Done (Store (delete (d_pubkey a) (st_index st)) ow (st_slots st)
                             (<[i := bc_empty]> (st_accounts st)), out ++ [a])
            else Done (Store (st_index st) ow (st_slots st) (<[i := b']> (st_accounts st)), out ++ [a])
          else Done (Store (st_index st) (st_owners st) (st_slots st) (<[i := b']> (st_accounts st)), out ++ [a])
      end
  end.
Fixpoint promote_all (F : filt) (st : store) (out : list acct) (l : list (nat * N)) (c : commitment)
    : res (store * list acct) :=
  match l with
  | [] => Done (st, out)
  | (i, s) :: l' => '(st', out') ← promote_one F st out i s c; promote_all F st' out' l' c
  end.

(** First part of [process_slot_data], 350-425 (under the slot status lock).  The fuel is the
    number of known slots plus one, enough by [slot_walk_total]. *)
Definition slot_phase (sl : gmap N status) (si : slot_info) (c : commitment)
    : option (gmap N status * gmap nat N) :=
  match slot_walk (S (size sl)) sl ∅ (si_slot si) (Some (si_parent si)) (si_parent si) c with
  | None => None
  | Some (sl', wa) =>
      Some (match c with Finalized => prune_slots (si_slot si) sl' | _ => sl' end, wa)
  end.

(** [process_slot_data], 349-455.  Out of fuel is mapped to [Panic] and excluded by a theorem. *)
Definition process_slot (F : filt) (st : store) (si : slot_info) (c : commitment)
    : res (store * list acct) :=
  '(sl, wa) ← unwrap (slot_phase (st_slots st) si c);
  promote_all F (Store (st_index st) (st_owners st) sl (st_accounts st)) [] (map_to_list wa) c.

(** [create_snapshot], 457-460. *)
Definition create_snapshot (E : ext) (F : filt) (st : store) (p : pubkey) : res (result bytes) :=
  r ← get_program_accounts E F st p None Finalized;
  Done (match r with ROk l => ROk (bincode_accounts l) | RErr e => RErr e end).

(** [load_from_snapshot], 462-473. *)
Fixpoint load_accounts (F : filt) (st : store) (l : list acct) : res store :=
  match l with
  | [] => Done st
  | a :: l' => st' ← init_account F st a; load_accounts F st' l'
  end.
Definition load_from_snapshot (F : filt) (st : store) (p : pubkey) (b : bytes) : res (store * result unit) :=
  match unbincode_accounts b with
  | None => Done (st, RErr DeserializationIssues)
  | Some l => st' ← load_accounts F st l; Done (st', ROk tt)
  end.

(** Operations and histories. *)
Inductive op :=
| OUpdate (a : acct) (c : commitment)
| OInit (a : acct)
| OGet (pk : pubkey) (c : commitment)
| OGpa (p : pubkey) (fl : option (list cond)) (c : commitment)
| OSlot (si : slot_info) (c : commitment)
| OSnap (p : pubkey)
| OLoad (p : pubkey) (b : bytes).
Inductive outcome :=
| RUpdate (b : bool) | RUnit
| RGet (r : result (option acct)) | RGpa (r : result (list acct))
| RSlot (l : list acct) | RSnap (r : result bytes) | RLoad (r : result unit).
Definition step (E : ext) (F : filt) (st : store) (o : op) : res (store * outcome) :=
  match o with
  | OUpdate a c => '(st', b) ← update_account F st a c; Done (st', RUpdate b)
  | OInit a => st' ← init_account F st a; Done (st', RUnit)
  | OGet pk c => r ← get_account st pk c; Done (st, RGet r)
  | OGpa p fl c => r ← get_program_accounts E F st p fl c; Done (st, RGpa r)
  | OSlot si c => '(st', l) ← process_slot F st si c; Done (st', RSlot l)
  | OSnap p => r ← create_snapshot E F st p; Done (st, RSnap r)
  | OLoad p b => '(st', r) ← load_from_snapshot F st p b; Done (st', RLoad r)
  end.
(** A history: each operation with the filter answers at its time. *)
Fixpoint run (E : ext) (st : store) (h : list (filt * op)) : res store :=
  match h with
  | [] => Done st
  | (F, o) :: h' => '(st', _) ← step E F st o; run E st' h'
  end.
