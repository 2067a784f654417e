(** Model of [account_storage/src/account_data_by_commitment.rs]. *)
From Verif Require Import Base DataModel FilterModel.

(** [AccountDataByCommitment], 11-16. *)
Record bycom := BC { bc_proc : smap acct; bc_conf : option acct; bc_fin : option acct }.
(** [Default], used by nothing but [delete]'s result, 278-282. *)
Definition bc_empty : bycom := BC [] None None.

(** [AccountDataByCommitment::new], 20-39. *)
Definition bc_new (a : acct) (c : commitment) : bycom :=
  BC [(d_slot a, a)]
     (match c with Confirmed | Finalized => Some a | Processed => None end)
     (match c with Finalized => Some a | _ => None end).

(** [initialize], 115-123. *)
Definition bc_initialize (a : acct) : bycom := BC [(d_slot a, a)] (Some a) (Some a).

(** [get_account_data], 41-51: [last_key_value] or confirmed. *)
Definition bc_get (b : bycom) (c : commitment) : option acct :=
  match c with
  | Processed => match last (bc_proc b) with Some (_, a) => Some a | None => bc_conf b end
  | Confirmed => bc_conf b
  | Finalized => bc_fin b
  end.

(** [get_account_data_filtered], 53-111. *)
Definition bc_get_filtered (E : ext) (b : bycom) (c : commitment) (fl : list cond) : res (option acct) :=
  match bc_get b c with
  | None => Done None
  | Some a =>
      if forallb (fun f => match f with Datasize n => data_len (d_data a) =? n | _ => true end) fl
      then match fl with
           | [] => Done (Some a)
           | _ =>
               match d_data a with
               | DRaw d => ok ← all_r (fun f => allows E f d) fl; Done (if ok : bool then Some a else None)
               | _ =>
                   d ← data_bytes E (d_data a);
                   ok ← all_r (fun f => allows E f d) fl;
                   Done (if ok : bool
                         then Some (Acct (d_pubkey a)
                                (Account (d_lamports a) (DRaw d) (d_owner a)
                                   (a_executable (d_account a)) (a_rent_epoch (d_account a)))
                                (d_slot a) (d_wv a))
                         else None)
               end
           end
      else Done None
  end.

(** The comparison of 129-144. *)
Definition newer (old : option acct) (a : acct) : bool :=
  match old with
  | None => true
  | Some x => (d_slot x <? d_slot a) || ((d_slot x =? d_slot a) && (d_wv x <? d_wv a))
  end.

(** [update], 125-186. *)
Definition bc_update (b : bycom) (a : acct) (c : commitment) : bycom * bool :=
  let update_confirmed := newer (bc_conf b) a in
  let update_finalized := newer (bc_fin b) a in
  let '(proc, updated) :=
    match sm_get (d_slot a) (bc_proc b) with
    | Some p => if d_wv p <? d_wv a then (sm_put (d_slot a) a (bc_proc b), true) else (bc_proc b, false)
    | None => (sm_put (d_slot a) a (bc_proc b), true)
    end in
  match c with
  | Confirmed =>
      if update_confirmed then (BC proc (Some a) (bc_fin b), true) else (BC proc (bc_conf b) (bc_fin b), updated)
  | Finalized =>
      let conf := if update_confirmed then Some a else bc_conf b in
      if update_finalized then (BC proc conf (Some a), true) else (BC proc conf (bc_fin b), updated)
  | Processed => (BC proc (bc_conf b) (bc_fin b), updated)
  end.

(** "remove old processed slot data", 244-254 and 259-269. *)
Fixpoint prune (s : N) (m : smap acct) : smap acct :=
  match m with
  | (k, _) :: ((_ :: _) as m') => if k <? s then prune s m' else m
  | _ => m
  end.

(** [promote_slot_commitment], 189-276: returns the promoted version and the one it replaced. *)
Definition bc_promote (b : bycom) (s : N) (c : commitment) : bycom * option (acct * option acct) :=
  match sm_get s (bc_proc b) with
  | Some a =>
      match c with
      | Processed => (b, None)
      | Confirmed =>
          match bc_conf b with
          | Some prev => if d_slot prev <? d_slot a
                         then (BC (bc_proc b) (Some a) (bc_fin b), Some (a, Some prev))
                         else (b, None)
          | None => (BC (bc_proc b) (Some a) (bc_fin b), Some (a, None))
          end
      | Finalized =>
          let conf := match bc_conf b with
                      | Some x => if d_slot x <? d_slot a then Some a else Some x
                      | None => Some a
                      end in
          let '(fin, r) :=
            match bc_fin b with
            | Some prev => if d_slot prev <? d_slot a then (Some a, Some (a, Some prev)) else (Some prev, None)
            | None => (Some a, Some (a, None))
            end in
          (BC (prune s (bc_proc b)) conf fin, r)
      end
  | None =>
      match c with
      | Finalized => (BC (prune s (bc_proc b)) (bc_conf b) (bc_fin b), None)
      | _ => (b, None)
      end
  end.

(** [delete], 278-282. *)
Definition bc_delete (b : bycom) : bycom := bc_empty.

(** Histories of one entry: a default entry followed by [update]s and promotions, in the way
    inmemory_account_store.rs 227 and 433 calls them. *)
Inductive abc_op := AUpdate (a : acct) (c : commitment) | APromote (s : N) (c : commitment).
Definition abc_step (b : bycom) (o : abc_op) : bycom :=
  match o with
  | AUpdate a c => (bc_update b a c).1
  | APromote s c => (bc_promote b s c).1
  end.
Definition abc_run (b : bycom) (h : list abc_op) : bycom := fold_left abc_step h b.
