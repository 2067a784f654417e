(** Locks taken by the operations of [account_storage/src/inmemory_account_store.rs] (those of the token
    store are in TokenLockModel.v).

    Every operation is reduced to the sequence of lock acquisitions and releases it performs; all
    branches of the code are possible traces (data is left out).  Simplifications: a DashMap shard is
    one readers/writer lock; [try_read] never blocks and is left out (its guard is a read guard on a
    lock of the class [LAcc] which is released before the next blocking acquisition except further
    [try_read]s); panics (poisoning) are left out. *)
From Verif Require Import Base.

(** - [LIdx k]: shard [k] of [pubkey_to_account_index] (40)
    - [LStore]: [accounts_store] (44), [LAcc i]: its element [i]
    - [LOwn k]: shard [k] of [accounts_by_owner] (41), [LSet p]: the set behind owner [p]
    - [LSlots]: the mutex [slots_status] (42)
    - [LFilter]: the lock inside the mutable filter store (43, mutable_filter_store.rs).

    The locks of the token store (TokenLockModel.v), inmemory_token_storage.rs 303-314 and 57,
    inmemory_token_account_storage.rs 34-35:
    - [TMintIdx k], [TMint k], [TMulti k], [TByMint k], [TByOwner k], [TKey k]: shard [k] of
      [mints_index_by_pubkey], [mints_by_index], [multisigs], [accounts_index_by_mint],
      [account_by_owner_pubkey], [pubkey_to_index]
    - [TTable]: [token_accounts], [TPend]: [processed_slot_accounts]. *)
Inductive lk :=
| LIdx (k : N) | LStore | LAcc (i : nat) | LOwn (k : N) | LSet (p : N) | LSlots | LFilter
| TMintIdx (k : nat) | TMint (k : nat) | TMulti (k : nat) | TByMint (k : nat) | TByOwner (k : nat) | TKey (k : nat) | TTable | TPend.
#[global] Instance lk_eq_dec : EqDecision lk.
Proof. solve_decision. Defined.
(** Acquire for writing ([true]) or reading ([false]); release. *)
Inductive instr := Acq (l : lk) (w : bool) | Rel (l : lk).
#[global] Instance instr_eq_dec : EqDecision instr.
Proof. solve_decision. Defined.

(** One lock held only for a moment. *)
Definition brief (l : lk) (w : bool) : list instr := [Acq l w; Rel l].

(** [satisfies_filters], 160-162. *)
Definition t_filter : list instr := brief LFilter false.
(** [add_account_owner], 58-69: the owner entry, and the set's lock when it exists. *)
Inductive t_add_owner : list instr -> Prop :=
| add_occupied k p : t_add_owner ([Acq (LOwn k) true] ++ brief (LSet p) true ++ [Rel (LOwn k)])
| add_vacant k : t_add_owner (brief (LOwn k) true).
(** [update_owner_delete_if_necessary], 74-107.  The result says whether the entry must be deleted. *)
Inductive t_update_owner : list instr -> bool -> Prop :=
| uo_same : t_update_owner [] false
| uo_weak_skip : t_update_owner t_filter false
| uo_weak_deleted : t_update_owner [] false
| uo_weak_add t : t_add_owner t -> t_update_owner (t_filter ++ t) false
| uo_fin_deleted r : t_add_owner r -> t_update_owner r true
| uo_fin_unwanted r : t_add_owner r -> t_update_owner (r ++ t_filter) true
| uo_fin_add r t : t_add_owner r -> t_add_owner t -> t_update_owner (r ++ t_filter ++ t_filter ++ t) false.
(** [maybe_update_slot_status], 141-158, with [add_account_index_to_slot_status], 110-139. *)
Inductive t_maybe_status : list instr -> Prop :=
| ms_none k : t_maybe_status (brief (LIdx k) false)
| ms_some k : t_maybe_status (brief (LIdx k) false ++ brief LSlots true).

(** [update_account], 205-264. *)
Inductive t_update : list instr -> Prop :=
| u_reject k : t_update (t_filter ++ brief (LIdx k) false)
| u_occupied pre ms k i uo del : pre = [] \/ pre = t_filter \/ pre = t_filter ++ brief (LIdx k) false ->
    t_maybe_status ms -> t_update_owner uo del ->
    t_update (pre ++ ms ++ [Acq (LIdx k) true; Acq LStore false; Acq (LAcc i) true] ++ uo
              ++ [Rel (LAcc i); Rel LStore; Rel (LIdx k)])
| u_vacant_in pre ms k ao : pre = [] \/ pre = t_filter \/ pre = t_filter ++ brief (LIdx k) false ->
    t_maybe_status ms -> t_add_owner ao ->
    t_update (pre ++ ms ++ [Acq (LIdx k) true] ++ t_filter ++ brief LStore true ++ ao ++ brief LSlots true ++ [Rel (LIdx k)])
| u_vacant_out pre ms k : pre = [] \/ pre = t_filter \/ pre = t_filter ++ brief (LIdx k) false ->
    t_maybe_status ms ->
    t_update (pre ++ ms ++ [Acq (LIdx k) true] ++ t_filter ++ [Rel (LIdx k)]).
(** [get_account], 270-292. *)
Inductive t_get : list instr -> Prop :=
| g_none k : t_get (brief (LIdx k) false)
| g_some k i : t_get (brief (LIdx k) false ++ [Acq LStore false; Acq (LAcc i) false; Rel (LAcc i); Rel LStore]).
(** [get_program_accounts], 294-347: retried accounts are locked one after the other. *)
Inductive t_gpa : list instr -> Prop :=
| gpa_reject : t_gpa t_filter
| gpa_vacant k : t_gpa (t_filter ++ brief (LOwn k) true)
| gpa_some k p (retry : list nat) :
    t_gpa (t_filter ++ brief (LOwn k) true ++ [Acq LStore false] ++ brief (LSet p) false
           ++ concat (map (fun i => brief (LAcc i) false) retry) ++ [Rel LStore]).
(** One iteration of the loop 430-453 of [process_slot_data]; [drops] says whether it removes the account
    from the index (443-444), which needs the index shard while the entry is locked. *)
Inductive t_promote : list instr -> bool -> Prop :=
| p_none i : t_promote (brief (LAcc i) true) false
| p_kept i uo : t_update_owner uo false -> t_promote ([Acq (LAcc i) true] ++ uo ++ [Rel (LAcc i)]) false
| p_dropped i uo k : t_update_owner uo true ->
    t_promote ([Acq (LAcc i) true] ++ uo ++ brief (LIdx k) true ++ [Rel (LAcc i)]) true.
(** [process_slot_data], 349-455. *)
Inductive t_slot : list instr -> bool -> Prop :=
| s_slot (l : list (list instr * bool)) : (forall t d, (t, d) ∈ l -> t_promote t d) ->
    t_slot (brief LSlots true ++ [Acq LStore false] ++ concat (map fst l) ++ [Rel LStore]) (existsb snd l).

(** A call; the flag says whether it is a slot notification that drops an account. *)
Inductive t_call : list instr -> bool -> Prop :=
| c_update t : t_update t -> t_call t false
| c_get t : t_get t -> t_call t false
| c_gpa t : t_gpa t -> t_call t false
| c_slot t d : t_slot t d -> t_call t d.

(** ** Threads *)
Record thread := Thread { th_held : list (lk * bool); th_todo : list instr }.
(** Remove the first guard on [l]. *)
Fixpoint drop_guard (l : lk) (h : list (lk * bool)) : list (lk * bool) :=
  match h with
  | [] => []
  | (l', w) :: h' => if bool_decide (l' = l) then h' else (l', w) :: drop_guard l h'
  end.
Definition holds_write (th : thread) (l : lk) : Prop := (l, true) ∈ th_held th.
Definition holds_any (th : thread) (l : lk) : Prop := exists w, (l, w) ∈ th_held th.
Definition waits_write (th : thread) (l : lk) : Prop := exists t, th_todo th = Acq l true :: t.

(** A reader is admitted only when no writer holds or waits for the lock (std's lock prefers
    writers; this is the most blocking behaviour). *)
Definition may_acquire (ths : list thread) (i : nat) (l : lk) (w : bool) : Prop :=
  (if w then forall j th, ths !! j = Some th -> ~ holds_any th l
   else forall j th, ths !! j = Some th -> ~ holds_write th l /\ (j <> i -> ~ waits_write th l)).
Inductive lstep (ths : list thread) : list thread -> Prop :=
| lstep_acq i h l w t : ths !! i = Some (Thread h (Acq l w :: t)) -> may_acquire ths i l w ->
    lstep ths (<[i := Thread ((l, w) :: h) t]> ths)
| lstep_rel i h l t : ths !! i = Some (Thread h (Rel l :: t)) ->
    lstep ths (<[i := Thread (drop_guard l h) t]> ths).
Definition lreach (ths ths' : list thread) : Prop := rtc lstep ths ths'.
(** Some thread is not finished and none can move. *)
Definition stuck (ths : list thread) : Prop :=
  (exists i th, ths !! i = Some th /\ th_todo th <> []) /\ forall ths', ~ lstep ths ths'.
(** Each thread starts a sequence of calls. *)
Definition start (calls : list (list (list instr))) : list thread := map (fun l => Thread [] (concat l)) calls.
