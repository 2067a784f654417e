(** Model of [ProcessedAccountStore], token_account_storage/src/inmemory_token_storage.rs 43-301. *)
From Verif Require Import Base DataModel TokenModel TokenUtilsModel.

(** [ProcessedAccount], 44-48: the account and its write version. *)
Notation pacct := (tpa * N)%type.
(** [ProcessedAccountBySlot], 50-53. *)
Record pslot := PSlot { ps_accounts : gmap pubkey pacct; ps_parent : option N }.
(** [ProcessedAccountStore], 55-58 (the value under the lock). *)
Notation pend := (smap pslot).

(** [insert_account], 61-124. *)
Definition pd_insert (p : pend) (pk : pubkey) (a : tpa) (wv slot : N) : pend * bool :=
  match sm_get slot p with
  | Some b =>
      match ps_accounts b !! pk with
      | Some (_, w) =>
          if w <? wv then (sm_put slot (PSlot (<[pk := (a, wv)]> (ps_accounts b)) (ps_parent b)) p, true) else (p, false)
      | None => (sm_put slot (PSlot (<[pk := (a, wv)]> (ps_accounts b)) (ps_parent b)) p, true)
      end
  | None => (sm_put slot (PSlot {[pk := (a, wv)]} None) p, true)
  end.

(** [update_slot_info], 126-148: a slot not seen before is recorded without its parent. *)
Definition pd_slot_info (p : pend) (si : slot_info) : pend :=
  match sm_get (si_slot si) p with
  | Some b => sm_put (si_slot si) (PSlot (ps_accounts b) (Some (si_parent si))) p
  | None => sm_put (si_slot si) (PSlot ∅ None) p
  end.

(** Conversion of a list of (account, slot, write version), stopping at the first panic
    ([filter_map] with [token_program_account_to_solana_account]). *)
Fixpoint to_accts (mints : gmap N mint_account) (l : list (tpa * N * N)) : res (list acct) :=
  match l with
  | [] => Done []
  | (a, slot, wv) :: l' =>
      o ← tpa_to_acct a slot wv mints;
      r ← to_accts mints l';
      Done (match o with Some x => x :: r | None => r end)
  end.

(** [get_processed_for_slot], 150-176; the order of the [HashMap] iteration is not modelled. *)
Definition pd_for_slot (p : pend) (si : slot_info) (mints : gmap N mint_account) : res (pend * list acct) :=
  match sm_get (si_slot si) p with
  | Some b => l ← to_accts mints ((fun '(_, (a, wv)) => (a, si_slot si, wv)) <$> map_to_list (ps_accounts b)); Done (p, l)
  | None => Done (pd_slot_info p si, [])
  end.

(** [finalize], 179-224.  The loop of 183-210: entries of newer slots win, every visited slot is removed.
    [fuel] bounds the number of visited slots; every round removes one. *)
Fixpoint fin_walk (fuel : nat) (p : pend) (cur : option N) (acc : gmap pubkey (pacct * N)) : pend * gmap pubkey (pacct * N) :=
  match fuel with
  | O => (p, acc)
  | S fuel' =>
      match cur with
      | None => (p, acc)
      | Some s =>
          match sm_get s p with
          | None => (p, acc)
          | Some b => fin_walk fuel' (sm_del s p) (ps_parent b) (acc ∪ ((fun a => (a, s)) <$> ps_accounts b))
          end
      end
  end.
(** The loop of 212-219. *)
Fixpoint pop_upto (slot : N) (p : pend) : pend :=
  match p with
  | [] => []
  | (k, b) :: p' => if k <=? slot then pop_upto slot p' else p
  end.
Definition pd_finalize (p : pend) (slot : N) : pend * gmap pubkey (pacct * N) :=
  let '(p', m) := fin_walk (S (length p)) p (Some slot) ∅ in (pop_upto slot p', m).

(** One slot of the loops of 241-248 and 274-285: fill the entries not yet found. *)
Fixpoint fill (b : pslot) (s : N) (pks : list pubkey) (ret : list (option (pacct * N))) : list (option (pacct * N)) :=
  match pks, ret with
  | pk :: pks', o :: ret' =>
      match o with
      | Some _ => o
      | None => (fun a => (a, s)) <$> ps_accounts b !! pk
      end :: fill b s pks' ret'
  | _, _ => ret
  end.
Definition all_found (ret : list (option (pacct * N))) : bool := forallb (fun o => match o with Some _ => true | None => false end) ret.
(** [get_confirmed_accounts], 226-256.  The loop follows the recorded parents and need not end: [None] when it
    is still running after [fuel] slots. *)
Fixpoint conf_walk (fuel : nat) (p : pend) (pks : list pubkey) (cur : option N) (ret : list (option (pacct * N)))
  : option (list (option (pacct * N))) :=
  match fuel with
  | O => None
  | S fuel' =>
      match cur with
      | None => Some ret
      | Some s =>
          match sm_get s p with
          | None => Some ret
          | Some b =>
              let ret' := fill b s pks ret in
              if all_found ret' then Some ret' else conf_walk fuel' p pks (ps_parent b) ret'
          end
      end
  end.
(** [get_accounts], 258-301: the [Processed] case walks down from the newest slot (270-291); [l] is the reversed map. *)
Fixpoint proc_walk (fuel : nat) (p : pend) (pks : list pubkey) (conf : N) (l : pend) (ret : list (option (pacct * N)))
  : option (list (option (pacct * N))) :=
  match l with
  | [] => Some ret
  | (s, b) :: l' =>
      if conf <? s then
        let ret' := fill b s pks ret in
        if all_found ret' then Some ret' else proc_walk fuel p pks conf l' ret'
      else conf_walk fuel p pks (Some conf) ret
  end.
Definition pd_get_fuel (fuel : nat) (p : pend) (pks : list pubkey) (c : commitment) (conf : N) : res (option (list (option (pacct * N)))) :=
  let ret := replicate (length pks) None in
  match c with
  | Processed => Done (proc_walk fuel p pks conf (reverse p) ret)
  | Confirmed => Done (conf_walk fuel p pks (Some conf) ret)
  | Finalized => Panic
  end.
(** The call as made: when the walk has visited more slots than there are it never ends (theorem
    [C45_fuel_enough]); the model then answers [Panic], "the call does not return". *)
Definition pd_get (p : pend) (pks : list pubkey) (c : commitment) (conf : N) : res (list (option (pacct * N))) :=
  o ← pd_get_fuel (S (length p)) p pks c conf; unwrap o.
